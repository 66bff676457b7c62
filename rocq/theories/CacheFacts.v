(* Proofs about the reader cache. *)
From Coq Require Import String Ascii ZArith List Bool Lia.
From Coq Require Import ZifyBool ZifyNat.
From Verif Require Import Py PyFacts PyFloat IbmFloat Util Catalog Packing Spec_Packing PackingFacts Formats FormatFacts FileIO Text Spec_Text TextIO TextIOFacts Float32 Toolkit ToolkitFacts Spec_Segy Reader Spec_Reader ReaderFacts Cache Spec_Cache.
Import ListNotations.
Local Open Scope string_scope.
Open Scope list_scope.
Open Scope Z_scope.

(* ------------------------------------------------------------------ *)
(* hash_for_file *)
Lemma firstn_skipn_length {A} n : forall q : list A, firstn n q ++ skipn (length (firstn n q)) q = q.
Proof. induction n; intros [|x q]; cbn; auto. now rewrite IHn. Qed.
Lemma read_chunks_spec fuel : forall d p, 0 <= p <= zlen d -> (length d < fuel + Z.to_nat p)%nat ->
  read_chunks fuel (mk_file d p) = (Ok (skipn (Z.to_nat p) d), mk_file d (zlen d)).
Proof.
  induction fuel as [|fuel IH]; intros d p P F; [unfold zlen in P; lia|].
  cbn [read_chunks]. unfold ibind at 1. unfold read. cbn [f_data f_pos].
  assert (HB : 0 < HASH_BLOCK_SIZE) by reflexivity. generalize dependent HASH_BLOCK_SIZE. intros B HB.
  pose proof (zlen_py_slice d p (p + B) ltac:(lia) ltac:(lia)) as L.
  destruct (py_slice d p (p + B)) as [|x l] eqn:E.
  - rewrite zlen_nil in L. assert (p = zlen d) as -> by lia. unfold ret. rewrite skipn_all2 by (unfold zlen; lia).
    rewrite zlen_nil. now rewrite Z.add_0_r.
  - unfold ibind. rewrite IH by (unfold zlen in *; cbn [length] in *; lia). unfold ret. do 2 f_equal.
    rewrite <- E in *. replace (p + zlen (py_slice d p (p + B))) with (zlen (py_slice d p (p + B)) + p) by lia.
    rewrite <- skipn_plus by (try apply zlen_nonneg; lia). unfold py_slice at 1.
    set (q := skipn (Z.to_nat p) d) in *.
    assert (Q : Z.to_nat (zlen (py_slice d p (p + B))) = length (firstn (Z.to_nat (p + B - p)) q)) by (unfold py_slice, zlen; rewrite Nat2Z.id; reflexivity).
    rewrite Q. apply firstn_skipn_length.
Qed.

Definition hashed (d : list Z) (args : list (list Z)) : list Z := d ++ length_bytes (zlen d) ++ concat args.
Lemma hash_ok args f : hash_for_file args f = (Ok (hashed (f_data f) args), mk_file (f_data f) 0).
Proof.
  destruct f as [d p]. unfold hash_for_file. unfold ibind at 1. unfold seek at 1. change (0 <? 0) with false. cbn [f_data].
  unfold ibind at 1. cbn [f_data]. rewrite read_chunks_spec by (unfold zlen; lia). change (Z.to_nat 0) with O. cbn [skipn].
  unfold ibind, tell, seek, ret. change (0 <? 0) with false. reflexivity.
Qed.

Lemma le_bytes_length n : forall v, length (le_bytes n v) = n.
Proof. induction n; intros; cbn [le_bytes length]; auto. Qed.
Lemma le_bytes_value n : forall v, 0 <= v < 256 ^ Z.of_nat n ->
  Forall (fun x => 0 <= x < 256) (le_bytes n v) /\ fold_right (fun x a => x + 256 * a) 0 (le_bytes n v) = v.
Proof.
  induction n as [|n IH]; intros v V; [cbn; cbn in V; split; [constructor|lia]|].
  rewrite Nat2Z.inj_succ, Z.pow_succ_r in V by lia. cbn [le_bytes fold_right].
  assert (D : 0 <= v / 256 < 256 ^ Z.of_nat n) by (split; [apply Z.div_pos; lia|apply Z.div_lt_upper_bound; lia]).
  destruct (IH _ D) as (A & B). split.
  - constructor; [apply Z.mod_pos_bound; lia|exact A].
  - rewrite B. pose proof (Z.div_mod v 256). lia.
Qed.
Lemma bit_length_bounds n : 0 <= n -> 0 <= bit_length n /\ n < 2 ^ bit_length n /\ (0 < n -> 2 ^ bit_length n <= 2 * n).
Proof.
  intros N. unfold bit_length. destruct (n =? 0) eqn:E; [cbn; lia|]. rewrite Z.abs_eq by lia.
  pose proof (Z.log2_nonneg n). destruct (Z.log2_spec n ltac:(lia)) as (A & B). rewrite Z.pow_succ_r in B by lia. 
  rewrite Z.pow_add_r by lia. change (2 ^ 1) with 2. lia.
Qed.
Lemma length_bytes_length n : zlen (length_bytes n) = Z.max 0 (bit_length n / 8 + 1).
Proof. unfold length_bytes, zlen. rewrite le_bytes_length. lia. Qed.
Lemma length_bytes_ok n : 0 <= n -> is_length n (length_bytes n).
Proof.
  intros N. destruct (bit_length_bounds n N) as (P & U & L). pose proof (length_bytes_length n) as E.
  assert (Q : 0 <= bit_length n / 8) by (apply Z.div_pos; lia). rewrite Z.max_r in E by lia.
  pose proof (Z.div_mod (bit_length n) 8 ltac:(lia)) as DM. pose proof (Z.mod_pos_bound (bit_length n) 8 ltac:(lia)).
  assert (W : n < 256 ^ (bit_length n / 8 + 1)).
  { change 256 with (2 ^ 8). rewrite <- Z.pow_mul_r by lia. eapply Z.lt_le_trans; [exact U|]. apply Z.pow_le_mono_r; lia. }
  unfold is_length. rewrite E. destruct (le_bytes_value (Z.to_nat (bit_length n / 8 + 1)) n) as (A & B); [rewrite Z2Nat.id by lia; lia|].
  split; [exact A|]. split; [exact B|]. split; [lia|].
  destruct (Z.eq_dec n 0) as [->|NZ]; [left; reflexivity|]. right. eapply Z.le_trans; [|apply L; lia].
  change 256 with (2 ^ 8). rewrite <- Z.pow_mul_r by lia. apply Z.pow_le_mono_r; lia.
Qed.
Lemma length_bytes_mono n m : 0 <= n <= m -> zlen (length_bytes n) <= zlen (length_bytes m).
Proof.
  intros N. rewrite !length_bytes_length. assert (bit_length n <= bit_length m); [|pose proof (Z.div_le_mono (bit_length n) (bit_length m) 8); lia].
  unfold bit_length. destruct (n =? 0) eqn:A, (m =? 0) eqn:B; try lia.
  - pose proof (Z.log2_nonneg (Z.abs m)). lia.
  - rewrite !Z.abs_eq by lia. pose proof (Z.log2_le_mono n m). lia.
Qed.

(* injectivity *)
Lemma data_inj d d' : d ++ length_bytes (zlen d) = d' ++ length_bytes (zlen d') -> d = d'.
Proof.
  intros E. assert (L : zlen d = zlen d').
  { assert (Q : zlen d + zlen (length_bytes (zlen d)) = zlen d' + zlen (length_bytes (zlen d'))) by (rewrite <- !zlen_app; now rewrite E).
    destruct (Z.lt_trichotomy (zlen d) (zlen d')) as [H|[H|H]]; auto.
    - pose proof (length_bytes_mono (zlen d) (zlen d')). pose proof (zlen_nonneg d). lia.
    - pose proof (length_bytes_mono (zlen d') (zlen d)). pose proof (zlen_nonneg d'). lia. }
  rewrite L in E. now apply app_inv_tail in E.
Qed.
Lemma split_at {A} (q : A) a : forall a' l l', ~ In q a -> ~ In q a' -> a ++ q :: l = a' ++ q :: l' -> a = a' /\ l = l'.
Proof.
  induction a as [|x a IH]; intros [|y a'] l l' N N' E; cbn in E.
  - injection E as ->. auto.
  - injection E as <- _. elim N'. now left.
  - injection E as -> _. elim N. now left.
  - injection E as -> E. destruct (IH a' l l') as (-> & ->); auto; intros ?; [apply N|apply N']; now right.
Qed.
Lemma string_bytes_app a b : string_bytes (a ++ b)%string = string_bytes a ++ string_bytes b.
Proof. induction a as [|x a IH]; cbn; [reflexivity|]. now rewrite IH. Qed.
Lemma string_bytes_inj a : forall b, string_bytes a = string_bytes b -> a = b.
Proof.
  induction a as [|x a IH]; intros [|y b] E; try discriminate; auto. cbn in E. injection E as E1 E2.
  apply N2Z.inj in E1. rewrite (IH b E2). f_equal. rewrite <- (ascii_N_embedding x), <- (ascii_N_embedding y). now f_equal.
Qed.
Definition cls_name (c : cls) : string := match c with Global n => n | Local f => fmt_name f end.
Lemma named_quote c : named c -> ~ In 39 (string_bytes (cls_name c)).
Proof. destruct c; cbn; tauto. Qed.
Lemma class_repr_bytes c : string_bytes (class_repr c) = [60; 99; 108; 97; 115; 115; 32; 39] ++ string_bytes (cls_name c) ++ [39; 62].
Proof. unfold class_repr. rewrite !string_bytes_app. reflexivity. Qed.
Lemma class_peel X X' c c' : named c -> named c' -> X ++ string_bytes (class_repr c) = X' ++ string_bytes (class_repr c') -> X = X' /\ cls_name c = cls_name c'.
Proof.
  intros N N' E. rewrite !class_repr_bytes in E.
  change [60; 99; 108; 97; 115; 115; 32; 39] with ([60; 99; 108; 97; 115; 115; 32] ++ [39]) in E.
  apply (f_equal (@rev Z)) in E. rewrite !rev_app_distr in E. cbn [rev app] in E. injection E as E. rewrite <- !app_assoc in E. cbn [app] in E.
  apply split_at in E; [|rewrite <- in_rev; now apply named_quote ..]. destruct E as (A & B).
  injection B as B. apply (f_equal (@rev Z)) in A, B. rewrite !rev_involutive in A, B. split; [exact B|now apply string_bytes_inj].
Qed.
Lemma enc_peel X X' x x' : X ++ string_bytes (encoding_repr x) = X' ++ string_bytes (encoding_repr x') -> X = X' /\ x = x'.
Proof.
  intros E. apply (f_equal (@rev Z)) in E. rewrite !rev_app_distr in E.
  destruct x as [[| |]|], x' as [[| |]|]; cbn [encoding_repr string_bytes] in E; cbn in E; try discriminate E;
  injection E as E; apply (f_equal (@rev Z)) in E; rewrite !rev_involutive in E; auto.
Qed.
Lemma hashed_inj d d' c c' e e' : call_named c -> call_named c' -> hashed d (hash_args c e) = hashed d' (hash_args c' e') ->
  d = d' /\ ca_enc c = ca_enc c' /\ cls_name (ca_bc c) = cls_name (ca_bc c') /\ cls_name (ca_tc c) = cls_name (ca_tc c') /\ e = e'.
Proof.
  intros (NB & NT) (NB' & NT') E. unfold hashed, hash_args in E. cbn [map concat] in E. rewrite !app_nil_r in E. rewrite !app_assoc in E.
  assert (e = e' /\ forall X X', X ++ string_bytes (endian_repr e) = X' ++ string_bytes (endian_repr e') -> X = X') as (-> & K).
  { apply (f_equal (@rev Z)) in E. rewrite rev_app_distr in E. rewrite (rev_app_distr _ (string_bytes (endian_repr e'))) in E.
    assert (e = e') as ->; [destruct e, e'; auto; discriminate E|]. split; [reflexivity|]. intros X X'. apply app_inv_tail. }
  apply K in E. apply class_peel in E; auto. destruct E as (E & T). apply class_peel in E; auto. destruct E as (E & B).
  apply enc_peel in E. destruct E as (E & X). apply data_inj in E. auto.
Qed.

(* ------------------------------------------------------------------ *)
(* create_reader, step by step *)
Lemma bytes_eqb_eq a : forall b, bytes_eqb a b = true <-> a = b.
Proof.
  induction a as [|x a IH]; intros [|y b]; cbn; try (split; (reflexivity || discriminate)).
  rewrite andb_true_iff, Z.eqb_eq, IH. split; [intros (-> & ->); reflexivity|intros [= -> ->]; auto].
Qed.
Lemma key_eqb_eq a b : key_eqb a b = true <-> a = b.
Proof.
  destruct a as [a1 a2], b as [b1 b2]. unfold key_eqb. cbn [fst snd]. rewrite andb_true_iff, String.eqb_eq, bytes_eqb_eq.
  split; [intros (-> & ->); reflexivity|intros [= -> ->]; auto].
Qed.
Lemma key_eqb_refl a : key_eqb a a = true.
Proof. now apply key_eqb_eq. Qed.

Lemma checks_world a eo pr dim d : exists r, create_reader_checks a eo pr dim (mk_world (mk_file d 0) []) = (r, mk_world (mk_file d 0) []) /\
  forall e, r = Ok e -> eo = Some e /\ attrs_ok a /\ 3600 <= zlen d /\ pr <> NotCallable /\ (forall k, dim = Some k -> In k [1; 2; 3]).
Proof.
  destruct (checks_cases a eo pr dim (mk_file d 0) [] ltac:(cbn; lia)) as [(e & -> & A & L & P & D)|(y & E)].
  - cbn [f_data] in L. exists (Ok e). rewrite checks_pass by auto. split; [reflexivity|]. intros e' [= <-]. auto.
  - exists (Err y). split; [exact E|discriminate].
Qed.

Definition location (c : call) (h : handle) (e : endian) : res (option ckey) :=
  locate_cache_file (hd_name h) (ca_dir c) (hashed (hd_data h) (hash_args c e)).
Definition loaded (k : option ckey) (en : env) : res (option (reader * file)) * env :=
  match k with Some k => load_reader k en | None => (Ok None, en) end.
Definition scan_file (c : call) (d : list Z) (bc tc : fmt) (e : endian) : res reader * world :=
  make_reader (ca_enc c) bc tc e (ca_dim c) (mk_world (mk_file d 0) []).
Definition build (c : call) (h : handle) (bc tc : fmt) (e : endian) (k : option ckey) (en : env) : outcome * env :=
  match scan_file c (hd_data h) bc tc e with
  | (Err y, w) => ((Err y, w_log w), en)
  | (Ok r, w) =>
      match match k with
            | Some k => save_reader k (hd_name h) (f_pos (w_file w)) (ca_bc c) (ca_tc c) r en
            | None => (Ok tt, en)
            end with
      | (Err y, en) => ((Err y, w_log w), en)
      | (Ok _, en) => ((Ok (r, Callers), w_log w ++ [(1, 1)]), en)
      end
  end.
Definition checked (c : call) (h : handle) : res endian :=
  fst (create_reader_checks (hd_attrs h) (ca_endian c) (ca_progress c) (ca_dim c) (mk_world (mk_file (hd_data h) 0) [])).
Lemma cached_unfold c h en : create_reader_cached c h en =
  match checked c h with
  | Err y => ((Err y, []), en)
  | Ok e =>
      match class_of en (ca_bc c), class_of en (ca_tc c) with
      | Some bc, Some tc =>
          match location c h e with
          | Err y => ((Err y, []), en)
          | Ok k => match loaded k en with
                    | (Err y, en) => ((Err y, []), en)
                    | (Ok (Some (r, f)), en) => ((Ok (r, Reopened f), [(1, 1)]), en)
                    | (Ok None, en) => build c h bc tc e k en
                    end
          end
      | _, _ => ((Err AttributeError, []), en)
      end
  end.
Proof.
  unfold create_reader_cached, checked.
  destruct (checks_world (hd_attrs h) (ca_endian c) (ca_progress c) (ca_dim c) (hd_data h)) as (r & E & _). rewrite E. cbn [fst].
  destruct r as [e|y]; [|reflexivity].
  destruct (class_of en (ca_bc c)) as [bc|]; [|reflexivity]. destruct (class_of en (ca_tc c)) as [tc|]; [|reflexivity].
  unfold location. rewrite (on_file_ok _ _ _ _ _ (hash_ok (hash_args c e) (mk_file (hd_data h) 0))). cbn [f_data].
  destruct (ca_dir c) as [|s|s] eqn:DIR; cbn [locate_cache_file].
  - reflexivity.
  - cbn [loaded]. destruct (load_reader _ en) as [[[[r f]|]|y] en']; reflexivity.
  - destruct (hd_name h) as [|p|n] eqn:NM; [unfold build; reflexivity| |reflexivity].
    cbn [loaded]. destruct (load_reader _ en) as [[[[r f]|]|y] en']; try reflexivity. unfold build. rewrite NM. reflexivity.
Qed.
Lemma location_call c h k : call_location c h = Some k <-> exists e, checked c h = Ok e /\ location c h e = Ok (Some k).
Proof.
  unfold call_location, checked.
  destruct (checks_world (hd_attrs h) (ca_endian c) (ca_progress c) (ca_dim c) (hd_data h)) as (r & E & _). rewrite E. cbn [fst].
  destruct r as [e|y]; [|split; [discriminate|intros (? & ? & _); discriminate]].
  unfold location. rewrite (on_file_ok _ _ _ _ _ (hash_ok (hash_args c e) (mk_file (hd_data h) 0))). cbn [f_data].
  assert (Q : forall o : option ckey, (o = Some k) <-> (exists e', Ok e = Ok e' /\ @Ok (option ckey) o = Ok (Some k))).
  { intros o. split; [intros ->; eauto|intros (? & _ & H); congruence]. }
  destruct (ca_dir c) as [|s|s]; cbn [locate_cache_file].
  - split; [discriminate|intros (? & ? & ?); discriminate].
  - split; [intros [= <-]; exists e; auto|]. intros (e' & [= <-] & H). congruence.
  - destruct (hd_name h) as [|p|n].
    + split; [discriminate|intros (? & ? & ?); discriminate].
    + split; [intros [= <-]; exists e; auto|]. intros (e' & [= <-] & H). congruence.
    + split; [discriminate|intros (? & ? & ?); discriminate].
Qed.

(* loading and saving change nothing but the entry *)
Definition but_entry (k : ckey) (en en' : env) : Prop :=
  en_files en' = en_files en /\ en_classes en' = en_classes en /\ en_version en' = en_version en /\
  en_mkdir en' = en_mkdir en /\ en_write en' = en_write en /\ en_unlink en' = en_unlink en /\
  forall j, j <> k -> en_cache en' j = en_cache en j.
Lemma but_refl k en : but_entry k en en.
Proof. unfold but_entry. auto 10. Qed.
Lemma but_trans k a b c : but_entry k a b -> but_entry k b c -> but_entry k a c.
Proof.
  intros (A1 & A2 & A3 & A4 & A5 & A6 & A7) (B1 & B2 & B3 & B4 & B5 & B6 & B7). unfold but_entry.
  rewrite B1, B2, B3, B4, B5, B6. do 6 (split; [auto|]). intros j J. rewrite B7, A7; auto.
Qed.
Lemma but_set k en x : but_entry k en (set_entry en k x).
Proof.
  unfold but_entry, set_entry. cbn. do 6 (split; [reflexivity|]). intros j J. destruct (key_eqb j k) eqn:E; [|reflexivity].
  apply key_eqb_eq in E. contradiction.
Qed.
Lemma set_entry_same en k x : en_cache (set_entry en k x) k = x.
Proof. cbn. now rewrite key_eqb_refl. Qed.
Lemma load_env k en r en' : load_reader k en = (r, en') -> but_entry k en en' /\
  (en_cache en' k = en_cache en k \/ r = Ok None /\ en_cache en' k = Missing).
Proof.
  unfold load_reader. assert (ST : but_entry k en (if en_unlink en then set_entry en k Missing else en) /\
    (en_cache (if en_unlink en then set_entry en k Missing else en) k = en_cache en k \/
     en_cache (if en_unlink en then set_entry en k Missing else en) k = Missing)).
  { destruct (en_unlink en); [split; [apply but_set|right; apply set_entry_same]|split; [apply but_refl|left; reflexivity]]. }
  destruct (en_cache en k) as [| | | | |s] eqn:E; try (intros [= <- <-]; split; [apply but_refl|left; congruence]).
  - intros [= <- <-]. destruct ST as (A & [B|B]); (split; [exact A|]); [left; congruence|right; auto].
  - destruct (reader_setstate en s); intros [= <- <-]; [split; [apply but_refl|left; congruence]|].
    destruct ST as (A & [B|B]); (split; [exact A|]); [left; congruence|right; auto].
Qed.
Lemma getstate_env en en' name pos bc tc r : en_version en' = en_version en -> reader_getstate en' name pos bc tc r = reader_getstate en name pos bc tc r.
Proof. intros V. unfold reader_getstate. now rewrite V. Qed.
Lemma save_env k name pos bc tc r en u en' : save_reader k name pos bc tc r en = (u, en') -> but_entry k en en' /\
  (en_cache en' k = en_cache en k \/ en_cache en' k = Damaged \/ exists s, reader_getstate en name pos bc tc r = Ok s /\ en_cache en' k = Saved s).
Proof.
  unfold save_reader. destruct (en_mkdir en); cbn [negb]; [|intros [= <- <-]; split; [apply but_refl|auto]].
  destruct (en_write en); cbn [negb]; [|intros [= <- <-]; split; [apply but_refl|auto]].
  assert (K : match reader_getstate en name pos bc tc r with
         | Ok s => (Ok tt, set_entry en k (Saved s))
         | Err AttributeError | Err TypeError => (Ok tt, set_entry en k Damaged)
         | Err y => (Err y, set_entry en k Damaged)
         end = (u, en') -> but_entry k en en' /\
  (en_cache en' k = en_cache en k \/ en_cache en' k = Damaged \/ exists s, reader_getstate en name pos bc tc r = Ok s /\ en_cache en' k = Saved s)).
  { destruct (reader_getstate en name pos bc tc r) as [s|y].
    - intros [= <- <-]. split; [apply but_set|]. right. right. exists s. split; [reflexivity|apply set_entry_same].
    - intros H. assert (en' = set_entry en k Damaged) as -> by (destruct y; congruence).
      split; [apply but_set|right; left; apply set_entry_same]. }
  destruct (en_cache en k) eqn:E; auto. intros [= <- <-]. split; [apply but_refl|auto].
Qed.

(* ------------------------------------------------------------------ *)
(* where entries come from *)
Definition made (en0 : env) (evs : list event) (k : ckey) (s : saved) : Prop :=
  exists evs1 c h evs2 e bc tc r w, evs = evs1 ++ Called c h :: evs2 /\ checked c h = Ok e /\ location c h e = Ok (Some k) /\
    class_of (after evs1 en0) (ca_bc c) = Some bc /\ class_of (after evs1 en0) (ca_tc c) = Some tc /\
    scan_file c (hd_data h) bc tc e = (Ok r, w) /\
    reader_getstate (after evs1 en0) (hd_name h) (f_pos (w_file w)) (ca_bc c) (ca_tc c) r = Ok s.
Lemma made_more en0 evs ev k s : made en0 evs k s -> made en0 (evs ++ [ev]) k s.
Proof.
  intros (evs1 & c & h & evs2 & e & bc & tc & r & w & -> & R). exists evs1, c, h, (evs2 ++ [ev]), e, bc, tc, r, w.
  split; [|exact R]. now rewrite <- app_assoc.
Qed.
Lemma after_snoc evs ev en : after (evs ++ [ev]) en = step ev (after evs en).
Proof. unfold after. now rewrite fold_left_app. Qed.

Definition entry_kind (en0 : env) (evs : list event) (k : ckey) (x : entry) : Prop :=
  x = Missing \/ x = Damaged \/ x = NotFile \/ exists s, x = Saved s /\ made en0 evs k s.
Lemma kind_more en0 evs ev k x : entry_kind en0 evs k x -> entry_kind en0 (evs ++ [ev]) k x.
Proof. intros [H|[H|[H|(s & H & M)]]]; unfold entry_kind; auto. right. right. right. exists s. split; [exact H|now apply made_more]. Qed.

Lemma called_cache c h en : exists k0, match k0 with
  | None => snd (create_reader_cached c h en) = en
  | Some k => but_entry k en (snd (create_reader_cached c h en)) /\
     let x := en_cache (snd (create_reader_cached c h en)) k in
     (x = en_cache en k \/ x = Missing \/ x = Damaged \/
      exists e bc tc r w s, checked c h = Ok e /\ location c h e = Ok (Some k) /\
       class_of en (ca_bc c) = Some bc /\ class_of en (ca_tc c) = Some tc /\ scan_file c (hd_data h) bc tc e = (Ok r, w) /\
       reader_getstate en (hd_name h) (f_pos (w_file w)) (ca_bc c) (ca_tc c) r = Ok s /\ x = Saved s)
  end.
Proof.
  rewrite cached_unfold. destruct (checked c h) as [e|y] eqn:C; [|exists None; reflexivity].
  destruct (class_of en (ca_bc c)) as [bc|] eqn:B; [|exists None; reflexivity].
  destruct (class_of en (ca_tc c)) as [tc|] eqn:T; [|exists None; reflexivity].
  destruct (location c h e) as [[k|]|y] eqn:L; [|exists None|exists None; reflexivity].
  2:{ cbn [loaded]. unfold build. destruct (scan_file _ _ _ _ _) as [[r|y] w]; reflexivity. }
  exists (Some k). cbn [loaded]. destruct (load_reader k en) as [l en1] eqn:LR. destruct (load_env _ _ _ _ LR) as (BE & EC).
  assert (EC' : en_cache en1 k = en_cache en k \/ en_cache en1 k = Missing) by tauto.
  destruct l as [[[r f]|]|y]; cbn [snd]; [split; [exact BE|cbn; tauto]| |split; [exact BE|cbn; tauto]].
  unfold build. destruct (scan_file c (hd_data h) bc tc e) as [[r|y] w] eqn:SF; cbn [snd]; [|split; [exact BE|cbn; tauto]].
  destruct (save_reader _ _ _ _ _ _ _) as [u en2] eqn:SR. destruct (save_env _ _ _ _ _ _ _ _ _ SR) as (BE2 & EC2).
  assert (Q : but_entry k en en2) by (eapply but_trans; eassumption).
  assert (X : en_cache en2 k = en_cache en k \/ en_cache en2 k = Missing \/ en_cache en2 k = Damaged \/
      exists e0 bc0 tc0 r0 w0 s, Ok e = Ok e0 /\ location c h e0 = Ok (Some k) /\
       Some bc = Some bc0 /\ Some tc = Some tc0 /\ scan_file c (hd_data h) bc0 tc0 e0 = (Ok r0, w0) /\
       reader_getstate en (hd_name h) (f_pos (w_file w0)) (ca_bc c) (ca_tc c) r0 = Ok s /\ en_cache en2 k = Saved s).
  { destruct EC2 as [H|[H|(s & G & H)]].
    - destruct EC' as [H'|H']; rewrite H, H'; auto.
    - auto.
    - right. right. right. exists e, bc, tc, r, w, s. rewrite getstate_env with (en := en) in G by (apply BE). auto 10. }
  destruct u; cbn [snd]; split; auto.
Qed.

Lemma provenance en0 evs : empty_cache en0 -> only_damage evs -> forall k, entry_kind en0 evs k (en_cache (after evs en0) k).
Proof.
  intros EM. induction evs as [|ev evs IH] using rev_ind; intros OD k; [left; apply EM|].
  assert (OD' : only_damage evs) by (intros ? ? H; apply (OD k0 x); apply in_or_app; auto).
  specialize (IH OD'). rewrite after_snoc. set (en := after evs en0) in *.
  assert (KM : forall j, entry_kind en0 (evs ++ [ev]) j (en_cache en j)) by (intros; apply kind_more, IH).
  assert (SE : forall en' j x, (forall i, entry_kind en0 (evs ++ [ev]) i (en_cache en' i)) -> (x = Missing \/ x = Damaged \/ x = NotFile) ->
     entry_kind en0 (evs ++ [ev]) k (en_cache (set_entry en' j x) k)).
  { intros en' j x A X. cbn. destruct (key_eqb k j); [|apply A]. unfold entry_kind. tauto. }
  destruct ev as [n d|c h|c h torn|j x|n c|v|m w u]; cbn [step]; try (apply KM).
  - destruct (called_cache c h en) as ([k0|] & H); [|rewrite H; apply KM]. destruct H as (BE & H). cbv zeta in H.
    destruct (key_eqb k k0) eqn:E.
    + apply key_eqb_eq in E. subst k0. destruct H as [H|[H|[H|(e & bc & tc & r & w & s & C & L & B & T & SF & G & H)]]]; rewrite H.
      * apply KM.
      * now left.
      * right. now left.
      * right. right. right. exists s. split; [reflexivity|]. exists evs, c, h, [], e, bc, tc, r, w. auto 10.
    + destruct BE as (_ & _ & _ & _ & _ & _ & BE). rewrite BE; [apply KM|]. intros ->. rewrite key_eqb_refl in E. discriminate.
  - unfold die. destruct (call_location c h) as [j|]; [|apply KM].
    destruct (load_reader j en) as [l en1] eqn:LR. destruct (load_env _ _ _ _ LR) as ((_ & _ & _ & _ & _ & _ & BE) & EC).
    assert (K1 : forall i, entry_kind en0 (evs ++ [Died c h torn]) i (en_cache en1 i)).
    { intros i. destruct (key_eqb i j) eqn:E.
      - apply key_eqb_eq in E. subst i. destruct EC as [EC|(_ & EC)]; rewrite EC; [apply KM|now left].
      - rewrite BE; [apply KM|]. intros ->. rewrite key_eqb_refl in E. discriminate. }
    destruct l as [[?|]|y]; try apply K1. destruct (en_cache en1 j); try apply K1;
      (destruct (torn && en_mkdir en1 && en_write en1); [apply SE; auto|apply K1]).
  - apply SE; auto. apply (OD j x). apply in_or_app. right. now left.
Qed.

(* classes stay *)
Lemma classes_keep en0 evs1 evs2 : classes_stable (evs1 ++ evs2) en0 -> forall n c, en_classes (after evs1 en0) n = Some c ->
  en_classes (after (evs1 ++ evs2) en0) n = Some c.
Proof.
  induction evs2 as [|ev evs2 IH] using rev_ind; intros ST n c H; [now rewrite app_nil_r|].
  assert (ST' : classes_stable (evs1 ++ evs2) en0).
  { intros a m x b E. apply (ST a m x (b ++ [ev])). rewrite app_assoc, E, <- app_assoc. reflexivity. }
  specialize (IH ST' n c H). rewrite app_assoc, after_snoc. set (en := after (evs1 ++ evs2) en0) in *.
  destruct ev as [m d|c' h|c' h torn|j x|m c'|v|m w u]; cbn [step]; try exact IH.
  - destruct (called_cache c' h en) as ([k0|] & Q); [|now rewrite Q]. destruct Q as ((_ & Q & _) & _). now rewrite Q.
  - unfold die. destruct (call_location c' h) as [j|]; [|exact IH].
    destruct (load_reader j en) as [l en1] eqn:LR. destruct (load_env _ _ _ _ LR) as ((_ & Q & _) & _).
    assert (Q1 : en_classes en1 n = Some c) by now rewrite Q.
    destruct l as [[?|]|y]; try exact Q1. destruct (en_cache en1 j); try exact Q1; (destruct (torn && en_mkdir en1 && en_write en1); exact Q1).
  - cbn. destruct (String.eqb n m) eqn:E; [|exact IH]. apply String.eqb_eq in E. subst m.
    destruct (ST (evs1 ++ evs2) n c' [] ltac:(now rewrite app_assoc)) as [A|A]; fold en in A; congruence.
Qed.

(* ------------------------------------------------------------------ *)
(* a scanned reader, and its pickled form *)
Definition scanned (d : list Z) (bc tc : fmt) (e : endian) (dim : option Z) (r : reader) : Prop :=
  exists x ts t, opened x bc tc e dim d r ts t.
Lemma scan_scanned c h e bc tc r w : checked c h = Ok e -> readable (hd_data h) (ca_enc c) bc tc ->
  scan_file c (hd_data h) bc tc e = (Ok r, w) -> scanned (hd_data h) bc tc e (ca_dim c) r.
Proof.
  unfold checked, scan_file. intros C (HB & B & T & HE) S.
  destruct (checks_world (hd_attrs h) (ca_endian c) (ca_progress c) (ca_dim c) (hd_data h)) as (r' & E & K). rewrite E in C. cbn [fst] in C.
  destruct (K e C) as (_ & _ & L & _ & D). destruct (encoding_exists (ca_enc c) (hd_data h)) as (x & X).
  rewrite (make_reader_enc _ _ _ _ _ _ _ _ X) in S.
  destruct (make_reader_total x bc tc e (ca_dim c) (hd_data h) [] (guessed_supported _ _ _ HE X) B T HB L D) as (r'' & q & log & R & _ & O).
  rewrite R in S. injection S as -> _. destruct (O r eq_refl) as (ts & t & p & OP & _). exists x, ts, t. exact OP.
Qed.
Lemma scanned_header d bc tc e dim r : scanned d bc tc e dim r -> h_cls (rd_binary r) = bc /\ header_ok (rd_binary r).
Proof.
  intros (x & ts & t & OP). destruct (op_headers _ _ _ _ _ _ _ _ _ OP) as (_ & (HC & HF) & _). split; [exact HC|].
  intros f F. rewrite HC in F. destruct (HF f F) as (v & G & A & _). eauto.
Qed.
Lemma scanned_max d bc tc e dim r : scanned d bc tc e dim r -> exists m, rd_max_num_trace_samples r = Ok m.
Proof. intros (x & ts & t & OP). destruct (rd_max _ _ _ _ _ _ _ _ _ OP) as (m & M & _). eauto. Qed.
Lemma scanned_packer d bc tc e dim r : scanned d bc tc e dim r -> make_header_packer tc e = Ok (rd_packer r).
Proof. intros (x & ts & t & OP). exact (op_packer _ _ _ _ _ _ _ _ _ OP). Qed.
Lemma packer_class c e p : make_header_packer c e = Ok p -> mk_packer c (pk_endian p) (pk_chunks p) (pk_alloc p) (pk_bijective p) = p.
Proof. unfold make_header_packer. destruct (compile_struct _ _ _) as [[a b]|]; cbn [bind]; [|discriminate]. intros [= <-]. reflexivity. Qed.
Lemma collections_auto d bc tc e r : scanned d bc tc e None r -> collections_ok r.
Proof.
  intros (x & ts & t & OP). destruct (op_kind _ _ _ _ _ _ _ _ _ OP) as (k & CH & KF). cbn in CH.
  assert (RK : (k = 1 /\ rd_dimensionality r <= 1) \/ (k = 2 /\ rd_dimensionality r = 2) \/ (k = 3 /\ rd_dimensionality r = 3)).
  { unfold rd_dimensionality. destruct KF as [(-> & ->)|[(-> & c & -> & _)|(-> & c & -> & _)]]; auto. left. split; [reflexivity|].
    destruct (_ =? 1); lia. }
  unfold collections_ok. destruct RK as [(-> & RK)|[(-> & RK)|(-> & RK)]]; (split; [intros D|intros D]); try lia.
  - assert (N : ~ NoDup (pairs ts) /\ NoDup (map t_cdp ts)) by (destruct CH as [(_ & CH)|[(A & B & _)|(_ & _ & CH)]]; [lia|tauto|lia]).
    destruct N as (N & M). destruct (index_2d _ _ _ _ _ _ _ _ _ OP M (or_introl (conj eq_refl N))) as (_ & _ & _ & (s & S & _) & _). eauto.
  - assert (N : NoDup (pairs ts)) by (destruct CH as [(A & _)|[(_ & _ & CH)|(_ & _ & CH)]]; [tauto|lia|lia]).
    destruct (index_3d _ _ _ _ _ _ _ _ _ OP N (or_introl eq_refl)) as (_ & _ & _ & (s & S & _) & (s' & S' & _) & _). eauto.
Qed.

Lemma exec_alike r r' : rd_kind r' = rd_kind r -> rd_text r' = rd_text r -> rd_ext r' = rd_ext r -> rd_offsets r' = rd_offsets r ->
  rd_lengths r' = rd_lengths r -> rd_packer r' = rd_packer r -> rd_encoding r' = rd_encoding r -> rd_endian r' = rd_endian r ->
  rd_revision r' = rd_revision r -> rd_bps r' = rd_bps r -> sample_format (rd_binary r') = sample_format (rd_binary r) ->
  forall native q s, q <> BinaryReelHeaderOf -> exec native r' q s = exec native r q s.
Proof.
  intros H1 H2 H3 H4 H5 H6 H7 H8 H9 H10 H11 native q s Q.
  destruct q; cbn [exec]; try contradiction;
    unfold rd_num_traces, rd_trace_indexes, rd_max_num_trace_samples, rd_num_trace_samples, rd_trace_samples, rd_trace_header, rd_dimensionality,
      rd_inline_numbers, rd_xline_numbers, rd_inline_xline_numbers, rd_has_trace_index3, rd_trace_index3, rd_cdp_numbers, rd_num_cdps,
      rd_has_trace_index2, rd_trace_index2, rd_num_trace_samples, rd_num_traces in *;
    rewrite ?H1, ?H2, ?H3, ?H4, ?H5, ?H6, ?H7, ?H8, ?H9, ?H10, ?H11; reflexivity.
Qed.
Lemma alike_refl r : answers_alike r r.
Proof. split; [split; reflexivity|reflexivity]. Qed.

Lemma getstate_ok en name pos bc tc r s : reader_getstate en name pos bc tc r = Ok s ->
  exists b t, bc = Global b /\ tc = Global t /\ name <> NoName /\ sv_version s = en_version en /\ sv_name s = name /\ sv_pos s = pos /\
    sv_reader s = r /\ sv_bc s = b /\ sv_tc s = t /\ hdr_getstate (rd_binary r) = Ok (sv_header s).
Proof.
  unfold reader_getstate. destruct (match rd_kind r with Plain => _ | Kind2D _ => _ | Kind3D _ => _ end) as [u|]; cbn [bind]; [|discriminate].
  destruct name as [|p|n]; try discriminate;
  (destruct (rd_max_num_trace_samples r); cbn [bind]; [|discriminate]; destruct (hdr_getstate (rd_binary r)) as [x|]; cbn [bind]; [|discriminate];
   destruct bc as [b|], tc as [t|]; try discriminate; intros [= <-]; exists b, t; cbn; repeat (split; [reflexivity || discriminate|]); reflexivity).
Qed.
Lemma getstate_errors d bc0 tc0 e dim en name pos bc tc r y : scanned d bc0 tc0 e dim r -> collections_ok r -> pickles bc0 ->
  reader_getstate en name pos bc tc r = Err y -> y = AttributeError \/ y = TypeError.
Proof.
  intros SC CO PI. destruct (scanned_max _ _ _ _ _ _ SC) as (m & M). destruct (scanned_header _ _ _ _ _ _ SC) as (HC & HO).
  destruct (PI _ HC HO) as (h' & HP & _). unfold hdr_pickle in HP. destruct (hdr_getstate (rd_binary r)) as [st|] eqn:GS; [|discriminate].
  unfold reader_getstate. destruct CO as (C2 & C3). unfold rd_dimensionality in C2, C3.
  assert (Q : match rd_kind r with
          | Plain => Ok tt
          | Kind2D _ => do _ <- rd_cdp_numbers r ;; Ok tt
          | Kind3D _ => do _ <- rd_inline_numbers r ;; do _ <- rd_xline_numbers r ;; Ok tt
          end = Ok tt).
  { destruct (rd_kind r); [reflexivity| |].
    - destruct (C2 eq_refl) as (s & S). now rewrite S.
    - destruct (C3 eq_refl) as (s & s' & S & S'). rewrite S, S'. reflexivity. }
  rewrite Q. cbn [bind]. rewrite M, GS. cbn [bind].
  destruct name; [intros [= <-]; auto| |]; (destruct bc, tc; intros H; injection H as <- || discriminate H; auto).
Qed.
Lemma saves d bc0 tc0 e dim k name pos bc tc r en : scanned d bc0 tc0 e dim r -> collections_ok r -> pickles bc0 -> en_mkdir en = true ->
  fst (save_reader k name pos bc tc r en) = Ok tt.
Proof.
  intros SC CO PI MK. unfold save_reader. rewrite MK. cbn [negb]. destruct (en_write en); cbn [negb]; [|reflexivity].
  assert (K : fst match reader_getstate en name pos bc tc r with
         | Ok s => (Ok tt, set_entry en k (Saved s))
         | Err AttributeError | Err TypeError => (Ok tt, set_entry en k Damaged)
         | Err y => (Err y, set_entry en k Damaged)
         end = Ok tt).
  { destruct (reader_getstate en name pos bc tc r) as [s|y] eqn:G; [reflexivity|].
    destruct (getstate_errors _ _ _ _ _ _ _ _ _ _ _ _ SC CO PI G) as [-> | ->]; reflexivity. }
  destruct (en_cache en k); auto.
Qed.

(* the plain call *)
Lemma plain_outcome c h en : fst (create_reader_cached (without_cache c) h en) =
  match checked c h with
  | Err y => (Err y, [])
  | Ok e => match class_of en (ca_bc c), class_of en (ca_tc c) with
            | Some bc, Some tc => match scan_file c (hd_data h) bc tc e with
                                  | (Err y, w) => (Err y, w_log w)
                                  | (Ok r, w) => (Ok (r, Callers), w_log w ++ [(1, 1)])
                                  end
            | _, _ => (Err AttributeError, [])
            end
  end.
Proof.
  rewrite cached_unfold. change (checked (without_cache c) h) with (checked c h). destruct (checked c h) as [e|y]; [|reflexivity].
  cbn [without_cache ca_bc ca_tc]. destruct (class_of en (ca_bc c)) as [bc|]; [|reflexivity]. destruct (class_of en (ca_tc c)) as [tc|]; [|reflexivity].
  unfold location. cbn [without_cache ca_dir locate_cache_file loaded]. unfold build, scan_file. cbn [without_cache ca_enc ca_dim].
  destruct (make_reader _ _ _ _ _ _) as [[r|y] w]; reflexivity.
Qed.
Lemma built_same c h en en' bc tc e k : checked c h = Ok e -> readable (hd_data h) (ca_enc c) bc tc -> pickles bc ->
  en_mkdir en' = true -> plain_collections c h en -> class_of en (ca_bc c) = Some bc -> class_of en (ca_tc c) = Some tc ->
  same_outcome (hd_data h) (fst (build c h bc tc e k en')) (fst (create_reader_cached (without_cache c) h en)).
Proof.
  intros C RD PI MK PC B T. unfold plain_collections in PC. rewrite plain_outcome in *. rewrite C, B, T in *. unfold build.
  destruct (scan_file c (hd_data h) bc tc e) as [[r|y] w] eqn:SF; [|reflexivity].
  pose proof (PC r Callers eq_refl) as CO. pose proof (scan_scanned _ _ _ _ _ _ _ C RD SF) as SC. cbn [fst].
  assert (S : fst (match k with Some k => save_reader k (hd_name h) (f_pos (w_file w)) (ca_bc c) (ca_tc c) r en' | None => (Ok tt, en') end) = Ok tt).
  { destruct k as [k|]; [|reflexivity]. eapply saves; eauto. }
  destruct (match k with Some k => save_reader k (hd_name h) (f_pos (w_file w)) (ca_bc c) (ca_tc c) r en' | None => (Ok tt, en') end) as [u en2].
  cbn [fst] in S. subst u. cbn. split; [apply alike_refl|auto].
Qed.

(* loading what was saved *)
Lemma loads_same d bc tc e dim r en en1 name pos b t s rf : scanned d bc tc e dim r -> binary_format bc -> pickles bc ->
  reader_getstate en name pos (Global b) (Global t) r = Ok s -> en_classes en1 b = Some bc -> en_classes en1 t = Some tc ->
  (en_files en1 name = Some d \/ en_files en1 name = None) ->
  reader_setstate en1 s = Ok rf -> answers_alike r (fst rf) /\ snd rf = mk_file d pos.
Proof.
  intros SC BF PI G B T FI. destruct (getstate_ok _ _ _ _ _ _ _ G) as (b' & t' & [= <-] & [= <-] & _ & V & N & P & R & SB & ST & HG).
  destruct (scanned_header _ _ _ _ _ _ SC) as (HC & HO). destruct (PI _ HC HO) as (h' & HP & SF).
  unfold hdr_pickle in HP. rewrite HG, HC in HP. cbn [bind] in HP.
  unfold reader_setstate. rewrite SB, ST, B, T, HP, N, R, P. cbn [bind]. destruct (negb _); [discriminate|].
  destruct FI as [-> | ->]; [|discriminate]. intros [= <-]. cbn [fst snd]. split; [|reflexivity].
  split; [exact SF|]. apply exec_alike; cbn; try reflexivity.
  - apply packer_class with (e := e). eapply scanned_packer; eauto.
  - unfold sample_format. destruct BF as (_ & (f & F & <-) & _). destruct SF as (_ & SF). rewrite HC in SF. now rewrite (SF f F).
Qed.

Theorem cache_transparent en0 evs c h : empty_cache en0 -> only_damage evs -> classes_stable evs en0 -> calls_named evs -> call_named c ->
  one_dimensionality evs c h -> contents_kept evs (after evs en0) h -> locatable c h -> en_mkdir (after evs en0) = true ->
  request_ok c h (after evs en0) -> plain_collections c h (after evs en0) -> transparent c h (after evs en0).
Proof.
  intros EM OD CS CN NC ONE KEPT LOC MK RQ PC. set (en := after evs en0) in *. unfold transparent.
  rewrite cached_unfold. rewrite plain_outcome.
  destruct (checked c h) as [e|y] eqn:C; [|reflexivity].
  destruct (class_of en (ca_bc c)) as [bc|] eqn:B; [|reflexivity]. destruct (class_of en (ca_tc c)) as [tc|] eqn:T; [|reflexivity].
  destruct (RQ bc tc B T) as (RD & PI).
  assert (BUILD : forall k en', en_mkdir en' = true -> same_outcome (hd_data h) (fst (build c h bc tc e k en'))
     match scan_file c (hd_data h) bc tc e with (Err y, w) => (Err y, w_log w) | (Ok r, w) => (Ok (r, Callers), w_log w ++ [(1, 1)]) end).
  { intros k en' MK'. pose proof (built_same c h en en' bc tc e k C RD PI MK' PC B T) as H. rewrite plain_outcome, C, B, T in H. exact H. }
  destruct (location c h e) as [[k|]|y] eqn:L.
  - cbn [loaded]. destruct (load_reader k en) as [l en1] eqn:LR. destruct (load_env _ _ _ _ LR) as ((_ & _ & _ & MK1 & _) & _).
    rewrite MK in MK1. pose proof (provenance en0 evs EM OD k) as PR. fold en in PR. unfold load_reader in LR.
    destruct PR as [PR|[PR|[PR|(s & PR & M)]]]; rewrite PR in LR; [injection LR as <- <-; now apply BUILD ..|].
    destruct (reader_setstate en s) as [[r1 f1]|y] eqn:SS; injection LR as <- <-; [|now apply BUILD].
    destruct M as (evs1 & c' & h' & evs2 & e' & bc' & tc' & r & w & EV & C' & L' & B' & T' & SF & G).
    assert (IN : In (Called c' h') evs) by (rewrite EV; apply in_or_app; right; now left).
    destruct (getstate_ok _ _ _ _ _ _ _ G) as (b & t & EB & ET & _).
    unfold location in L, L'.
    assert (HH : hashed (hd_data h) (hash_args c e) = hashed (hd_data h') (hash_args c' e')).
    { unfold locate_cache_file in L, L'. destruct (ca_dir c); [discriminate| |destruct (hd_name h); try discriminate];
      (destruct (ca_dir c'); [discriminate| |destruct (hd_name h'); try discriminate]); congruence. }
    destruct (hashed_inj _ _ _ _ _ _ NC (CN _ _ IN) HH) as (ED & EE & NB & NT & <-).
    assert (GL : forall x y n, named x -> y = Global n -> named y -> cls_name x = cls_name y -> x = Global n).
    { intros x y n NX -> NY E. cbn in E. destruct x as [m|f]; cbn in *; [now subst|]. rewrite E in NX. tauto. }
    destruct NC as (NCB & NCT). destruct (CN _ _ IN) as (NCB' & NCT').
    pose proof (GL _ _ _ NCB EB NCB' NB) as CB. pose proof (GL _ _ _ NCT ET NCT' NT) as CT.
    rewrite EB in B', G. rewrite ET in T', G. rewrite CB in B. rewrite CT in T. cbn [class_of] in B, T, B', T'.
    assert (EV' : evs = evs1 ++ (Called c' h' :: evs2)) by exact EV. rewrite EV' in CS.
    pose proof (classes_keep en0 evs1 _ CS b bc' B') as B2. pose proof (classes_keep en0 evs1 _ CS t tc' T') as T2.
    rewrite <- EV' in B2, T2. fold en in B2, T2. rewrite B in B2. rewrite T in T2. injection B2 as <-. injection T2 as <-.
    assert (E0 : ca_endian c = ca_endian c').
    { unfold checked in C, C'. destruct (checks_world (hd_attrs h) (ca_endian c) (ca_progress c) (ca_dim c) (hd_data h)) as (q & Q & K). rewrite Q in C.
      destruct (checks_world (hd_attrs h') (ca_endian c') (ca_progress c') (ca_dim c') (hd_data h')) as (q' & Q' & K'). rewrite Q' in C'.
      destruct (K e C) as (-> & _). destruct (K' e C') as (-> & _). reflexivity. }
    assert (DM : ca_dim c' = ca_dim c).
    { apply (ONE c' h' IN); [congruence|]. unfold same_request. rewrite CB, CT, EB, ET. auto. }
    assert (SFF : scan_file c' (hd_data h') bc tc e = scan_file c (hd_data h) bc tc e) by (unfold scan_file; now rewrite <- ED, EE, DM).
    rewrite SFF in SF. rewrite SF. pose proof (scan_scanned _ _ _ _ _ _ _ C RD SF) as SC.
    destruct RD as (_ & BF & _).
    destruct (loads_same _ _ _ _ _ _ _ en _ _ _ _ _ (r1, f1) SC BF PI G B T) as (AL & FE).
    + destruct (KEPT c' h' IN) as [K|K]; auto; congruence.
    + exact SS.
    + cbn. split; [exact AL|]. right. cbn [snd] in FE. rewrite FE. eauto.
  - cbn [loaded]. now apply BUILD.
  - unfold location, locate_cache_file in L. destruct (ca_dir c) as [|s|s] eqn:DIR; try discriminate.
    destruct (hd_name h) as [|p|n] eqn:NM; try discriminate. elim (LOC s n DIR NM).
Qed.

(* ------------------------------------------------------------------ *)
(* corollaries *)
Lemma one_path_kept evs en h : one_path evs (hd_name h) -> en_files en (hd_name h) = Some (hd_data h) -> contents_kept evs en h.
Proof. intros OP F c' h' IN _. rewrite (OP c' h' IN). now left. Qed.
Theorem cache_one_path en0 evs c h : empty_cache en0 -> only_damage evs -> classes_stable evs en0 -> calls_named evs -> call_named c ->
  one_dimensionality evs c h -> one_path evs (hd_name h) -> en_files (after evs en0) (hd_name h) = Some (hd_data h) ->
  locatable c h -> en_mkdir (after evs en0) = true ->
  request_ok c h (after evs en0) -> plain_collections c h (after evs en0) -> transparent c h (after evs en0).
Proof. intros. apply cache_transparent; auto. now apply one_path_kept. Qed.

Lemma plain_auto c h en : ca_dim c = None -> request_ok c h en -> plain_collections c h en.
Proof.
  intros D RQ r src. rewrite plain_outcome. destruct (checked c h) as [e|y] eqn:C; [|discriminate].
  destruct (class_of en (ca_bc c)) as [bc|] eqn:B; [|discriminate]. destruct (class_of en (ca_tc c)) as [tc|] eqn:T; [|discriminate].
  destruct (RQ bc tc B T) as (RD & _). destruct (scan_file c (hd_data h) bc tc e) as [[r'|y] w] eqn:SF; [|discriminate].
  intros [= <- <-]. pose proof (scan_scanned _ _ _ _ _ _ _ C RD SF) as SC. rewrite D in SC. eapply collections_auto; eauto.
Qed.

Lemma no_cache_plain c h en bc tc : ca_dir c = NoCache -> class_of en (ca_bc c) = Some bc -> class_of en (ca_tc c) = Some tc ->
  let plain := create_reader (hd_attrs h) (ca_enc c) bc tc (ca_endian c) (ca_progress c) (ca_dim c) (mk_world (mk_file (hd_data h) 0) []) in
  create_reader_cached c h en = ((rmap (fun r => (r, Callers)) (fst plain), w_log (snd plain)), en).
Proof.
  intros D B T. cbv zeta. rewrite cached_unfold. unfold checked, create_reader.
  destruct (checks_world (hd_attrs h) (ca_endian c) (ca_progress c) (ca_dim c) (hd_data h)) as (r & E & _). rewrite E. cbn [fst].
  unfold wbind. rewrite E. destruct r as [e|y]; [|reflexivity]. rewrite B, T. unfold location. rewrite D. cbn [locate_cache_file loaded].
  unfold build, scan_file. destruct (make_reader _ _ _ _ _ _) as [[r|y] w]; reflexivity.
Qed.

(* unusable entries *)
Lemma load_unusable k en : unusable en k -> load_reader k en = (Ok None, if en_unlink en then set_entry en k Missing else en).
Proof. unfold load_reader. intros [-> |(s & y & -> & ->)]; reflexivity. Qed.
Lemma unusable_rebuilt c h en k : unusable en k -> call_location c h = Some k ->
  fst (create_reader_cached c h en) = fst (create_reader_cached c h (set_entry en k Missing)) /\
  (en_unlink en = true \/ (en_mkdir en = true /\ en_write en = true /\ exists r, fst (fst (create_reader_cached c h en)) = Ok r) ->
   class_of en (ca_bc c) <> None -> class_of en (ca_tc c) <> None ->
   en_cache (snd (create_reader_cached c h en)) k = en_cache (snd (create_reader_cached c h (set_entry en k Missing))) k).
Proof.
  intros U CL. apply location_call in CL. destruct CL as (e & C & L). rewrite !cached_unfold, C, L.
  change (class_of (set_entry en k Missing)) with (class_of en).
  destruct (class_of en (ca_bc c)) as [bc|]; [|split; [reflexivity|congruence]].
  destruct (class_of en (ca_tc c)) as [tc|]; [|split; [reflexivity|congruence]].
  cbn [loaded]. rewrite (load_unusable k en U).
  assert (LM : load_reader k (set_entry en k Missing) = (Ok None, set_entry en k Missing)) by (unfold load_reader; now rewrite set_entry_same).
  rewrite LM. destruct (en_unlink en); [split; reflexivity|]. unfold build.
  destruct (scan_file c (hd_data h) bc tc e) as [[r|y] w]; [|split; [reflexivity|]].
  2:{ intros [H|(_ & _ & r & H)]; discriminate. }
  assert (S : fst (save_reader k (hd_name h) (f_pos (w_file w)) (ca_bc c) (ca_tc c) r en) =
              fst (save_reader k (hd_name h) (f_pos (w_file w)) (ca_bc c) (ca_tc c) r (set_entry en k Missing)) /\
    (en_mkdir en = true -> en_write en = true ->
     en_cache (snd (save_reader k (hd_name h) (f_pos (w_file w)) (ca_bc c) (ca_tc c) r en)) k =
     en_cache (snd (save_reader k (hd_name h) (f_pos (w_file w)) (ca_bc c) (ca_tc c) r (set_entry en k Missing))) k)).
  { unfold save_reader. rewrite set_entry_same. change (en_mkdir (set_entry en k Missing)) with (en_mkdir en).
    change (en_write (set_entry en k Missing)) with (en_write en).
    destruct (en_mkdir en); cbn [negb]; [|split; [reflexivity|discriminate]]. destruct (en_write en); cbn [negb]; [|split; [reflexivity|discriminate]].
    rewrite getstate_env with (en := en) (en' := set_entry en k Missing) by reflexivity.
    assert (NF : forall X Y : res Datatypes.unit * env, match en_cache en k with NotFile => X | _ => Y end = Y).
    { intros X Y. destruct U as [-> |(s & y & -> & _)]; reflexivity. }
    rewrite NF. destruct (reader_getstate en (hd_name h) (f_pos (w_file w)) (ca_bc c) (ca_tc c) r) as [s|y].
    - cbn [fst snd]. rewrite !set_entry_same. auto.
    - destruct y; cbn [fst snd]; rewrite !set_entry_same; auto. }
  destruct S as (S1 & S2).
  destruct (save_reader k (hd_name h) (f_pos (w_file w)) (ca_bc c) (ca_tc c) r en) as [u1 e1].
  destruct (save_reader k (hd_name h) (f_pos (w_file w)) (ca_bc c) (ca_tc c) r (set_entry en k Missing)) as [u2 e2].
  cbn [fst snd] in *. subst u2. destruct u1; cbn [fst snd].
  - split; [reflexivity|]. intros [H|(A & B & _)]; [discriminate|auto].
  - split; [reflexivity|]. intros [H|(A & B & (q & Q))]; discriminate.
Qed.
Lemma unusable_opens c h en k : unusable en k \/ en_cache en k = Missing \/ en_cache en k = NotFile -> call_location c h = Some k ->
  en_mkdir en = true -> request_ok c h en -> plain_collections c h en -> transparent c h en.
Proof.
  intros U CL MK RQ PC. apply location_call in CL. destruct CL as (e & C & L). unfold transparent.
  rewrite cached_unfold, C, L.
  destruct (class_of en (ca_bc c)) as [bc|] eqn:B; [|rewrite plain_outcome, C, B; reflexivity].
  destruct (class_of en (ca_tc c)) as [tc|] eqn:T; [|rewrite plain_outcome, C, B, T; reflexivity].
  destruct (RQ bc tc B T) as (RD & PI). cbn [loaded].
  assert (Q : exists en', load_reader k en = (Ok None, en') /\ en_mkdir en' = true).
  { destruct U as [U|U].
    - rewrite (load_unusable k en U). eexists. split; [reflexivity|]. destruct (en_unlink en); exact MK.
    - unfold load_reader. exists en. destruct U as [-> | ->]; auto. }
  destruct Q as (en' & -> & MK'). eapply built_same; eauto.
Qed.

(* a saved reader is found again *)
Lemma hit c h en k b t bc tc r log en' : call_location c h = Some k -> ca_bc c = Global b -> ca_tc c = Global t ->
  en_classes en b = Some bc -> en_classes en t = Some tc -> readable (hd_data h) (ca_enc c) bc tc -> pickles bc -> plain_collections c h en ->
  en_mkdir en = true -> en_write en = true -> en_cache en k <> NotFile -> hd_name h <> NoName ->
  en_files en (hd_name h) = Some (hd_data h) ->
  create_reader_cached c h en = ((Ok (r, Callers), log), en') ->
  exists r' p, create_reader_cached c h en' = ((Ok (r', Reopened (mk_file (hd_data h) p)), [(1, 1)]), en') /\ answers_alike r r'.
Proof.
  intros CL EB ET B T RD PI PC MK WR NF NN FI. apply location_call in CL. destruct CL as (e & C & L). rewrite !cached_unfold, C, L, EB, ET.
  cbn [class_of]. rewrite B, T. cbn [loaded]. destruct (load_reader k en) as [l en1] eqn:LR. destruct (load_env _ _ _ _ LR) as (BE & EC).
  destruct l as [[[r0 f]|]|y]; try discriminate.
  destruct BE as (F1 & C1 & V1 & M1 & W1 & U1 & O1).
  unfold build. destruct (scan_file c (hd_data h) bc tc e) as [[r1|y] w] eqn:SF; [|discriminate].
  assert (CO : collections_ok r1).
  { apply (PC r1 Callers). rewrite plain_outcome, C, EB, ET. cbn [class_of]. now rewrite B, T, SF. }
  pose proof (scan_scanned _ _ _ _ _ _ _ C RD SF) as SC.
  assert (GS : exists s, reader_getstate en1 (hd_name h) (f_pos (w_file w)) (Global b) (Global t) r1 = Ok s).
  { destruct (reader_getstate en1 (hd_name h) (f_pos (w_file w)) (Global b) (Global t) r1) as [s|y] eqn:G; [eauto|]. exfalso.
    revert G. destruct (scanned_max _ _ _ _ _ _ SC) as (m & M). destruct (scanned_header _ _ _ _ _ _ SC) as (HC & HO).
    destruct (PI _ HC HO) as (h' & HP & _). unfold hdr_pickle in HP. destruct (hdr_getstate (rd_binary r1)) as [st|] eqn:GS; [|discriminate].
    unfold reader_getstate. destruct CO as (C2 & C3). unfold rd_dimensionality in C2, C3. rewrite M, GS. cbn [bind].
    destruct (rd_kind r1); [| destruct (C2 eq_refl) as (s & S); rewrite S| destruct (C3 eq_refl) as (s & s' & S & S'); rewrite S, S']; cbn [bind];
      destruct (hd_name h); try discriminate; contradiction. }
  destruct GS as (s & GS). unfold save_reader. rewrite M1, MK, W1, WR. cbn [negb]. rewrite EB, ET, GS.
  assert (NF1 : en_cache en1 k <> NotFile) by (destruct EC as [-> |(_ & ->)]; [exact NF|discriminate]).
  assert (Q : forall X Y : res Datatypes.unit * env, match en_cache en1 k with NotFile => X | _ => Y end = Y).
  { intros X Y. destruct (en_cache en1 k); congruence. }
  rewrite Q. intros [= <- <- <-]. 
  cbn [set_entry en_classes]. rewrite C1, B, T. destruct (getstate_ok _ _ _ _ _ _ _ GS) as (b' & t' & [= <-] & [= <-] & _ & V & N & P & R & SB & ST & HG).
  destruct (scanned_header _ _ _ _ _ _ SC) as (HC & HO). destruct (PI _ HC HO) as (h' & HP & SFL).
  assert (SS : exists rf, reader_setstate (set_entry en1 k (Saved s)) s = Ok rf).
  { unfold hdr_pickle in HP. rewrite HG, HC in HP. cbn [bind] in HP. unfold reader_setstate. rewrite SB, ST. cbn [set_entry en_classes en_version en_files].
    rewrite C1, B, T, HP. cbn [bind]. rewrite V, Z.eqb_refl. cbn [negb]. rewrite N, F1, FI. eauto. }
  destruct SS as ([r' f'] & SS). unfold load_reader. rewrite set_entry_same, SS.
  destruct (loads_same _ _ _ _ _ _ _ (set_entry en1 k (Saved s)) _ _ _ _ _ (r', f') SC (proj1 (proj2 RD)) PI GS) as (AL & FE).
  - cbn. now rewrite C1.
  - cbn. now rewrite C1.
  - cbn. rewrite F1. auto.
  - exact SS.
  - cbn [fst snd] in AL, FE. subst f'. eauto.
Qed.

(* ------------------------------------------------------------------ *)
(* witnesses *)
From Verif Require Import OpenFacts.
Definition classes (n : string) : option fmt :=
  if String.eqb n "BinaryReelHeader" then Some BinaryReelHeader
  else if String.eqb n "TraceHeaderRev1" then Some TraceHeaderRev1 else None.
Definition start : env := mk_env (fun _ => None) (fun _ => Missing) classes 1 true true true.
Definition request (dim : option Z) : call :=
  mk_call (Absolute "/cache") (Some ASCII) (Global "BinaryReelHeader") (Global "TraceHeaderRev1") (Some Big) NoProgress dim.
Definition opened_at (p : string) (d : list Z) : handle := mk_handle (Path p) attrs d.

(* what a call answers: the number of dimensions and of traces, the sample
   format, the inline numbers and whether the reader reads these contents *)
Definition view (d : list Z) (o : outcome) : res (Z * Z * res segytype * res (list Z) * bool) :=
  match fst o with
  | Ok (r, src) => Ok (rd_dimensionality r, rd_num_traces r, sample_format (rd_binary r), rmap sseq_list (rd_inline_numbers r),
                       match src with Callers => true | Reopened f => bytes_eqb (f_data f) d end)
  | Err y => Err y
  end.
Lemma view_same d o p : same_outcome d o p -> (forall r src, fst p = Ok (r, src) -> src = Callers) -> view d o = view d p.
Proof.
  unfold same_outcome, view. destruct (fst o) as [[r src]|y], (fst p) as [[r' src']|y']; try contradiction; [|intros ->; reflexivity].
  intros ((SF & AL) & S) P. rewrite (P r' src' eq_refl).
  pose (s := mk_session no_memo (mk_file [] 0)).
  assert (D : rd_dimensionality r = rd_dimensionality r') by (pose proof (AL Big Dimensionality s ltac:(discriminate)) as H; cbn [exec] in H; unfold pure, rmap in H; congruence).
  assert (N : rd_num_traces r = rd_num_traces r') by (pose proof (AL Big NumTraces s ltac:(discriminate)) as H; cbn [exec] in H; unfold pure, rmap in H; congruence).
  assert (F : sample_format (rd_binary r) = sample_format (rd_binary r')).
  { pose proof (AL Big DataSampleFormatOf s ltac:(discriminate)) as H; cbn [exec] in H; unfold pure in H.
    destruct (sample_format (rd_binary r)), (sample_format (rd_binary r')); cbn in H; congruence. }
  assert (I : rd_inline_numbers r = rd_inline_numbers r').
  { pose proof (AL Big InlineNumbers s ltac:(discriminate)) as H; cbn [exec] in H. unfold answers, memoised in H. cbn [m_inline s_memo s no_memo] in H.
    destruct (rd_inline_numbers r), (rd_inline_numbers r'); cbn in H; congruence. }
  rewrite D, N, F, I. destruct S as [-> |(q & ->)]; [reflexivity|]. cbn [f_data]. rewrite (proj2 (bytes_eqb_eq d d) eq_refl). reflexivity.
Qed.
Lemma opaque_view c h en v v' : view (hd_data h) (fst (create_reader_cached c h en)) = v ->
  view (hd_data h) (fst (create_reader_cached (without_cache c) h en)) = v' -> v <> v' -> ~ transparent c h en.
Proof.
  intros A B N T. apply N. rewrite <- A, <- B. apply view_same; [exact T|]. intros r src. rewrite plain_outcome.
  destruct (checked c h); [|discriminate]. destruct (class_of en (ca_bc c)); [|discriminate]. destruct (class_of en (ca_tc c)); [|discriminate].
  destruct (scan_file _ _ _ _ _) as [[?|?] ?]; cbn; congruence.
Qed.

(* a request for another dimensionality *)
Definition dim_history : list event := [File_changed (Path "/a") (Some file_3d); Called (request None) (opened_at "/a" file_3d)].
Lemma dim_witness : ~ transparent (request (Some 1)) (opened_at "/a" file_3d) (after dim_history start).
Proof. eapply opaque_view; [vm_compute; reflexivity|vm_compute; reflexivity|discriminate]. Qed.

(* a file is opened, a copy of it is made, the first is overwritten, the copy is opened *)
Definition copy_history : list event :=
  [File_changed (Path "/a") (Some file_3d); Called (request None) (opened_at "/a" file_3d);
   File_changed (Path "/b") (Some file_3d); File_changed (Path "/a") (Some file_2d)].
Lemma copy_witness : ~ transparent (request None) (opened_at "/b" file_3d) (after copy_history start).
Proof. eapply opaque_view; [vm_compute; reflexivity|vm_compute; reflexivity|discriminate]. Qed.

(* a class derived from BinaryReelHeader *)
Definition derived_binary : fmt :=
  mk_fmt (fmt_levels BinaryReelHeader ++ [("Mine", [mk_field "mine" Int16 3507 0])]) (fmt_start BinaryReelHeader) (fmt_length BinaryReelHeader) (fmt_attrs BinaryReelHeader).
Definition request_mine : call :=
  mk_call (Absolute "/cache") (Some ASCII) (Global "Mine") (Global "TraceHeaderRev1") (Some Big) NoProgress None.
Definition derived_history : list event :=
  [Class_defined "Mine" derived_binary; File_changed (Path "/a") (Some file_3d); Called request_mine (opened_at "/a" file_3d)].
Lemma derived_witness : ~ transparent request_mine (opened_at "/a" file_3d) (after derived_history start).
Proof. eapply opaque_view; [vm_compute; reflexivity|vm_compute; reflexivity|discriminate]. Qed.

(* a trace header class edited between two sessions *)
Definition request_edited : call :=
  mk_call (Absolute "/cache") (Some ASCII) (Global "BinaryReelHeader") (Global "Mine") (Some Big) NoProgress None.
Definition edited_history : list event :=
  [Class_defined "Mine" TraceHeaderRev1; File_changed (Path "/a") (Some moved_file); Called request_edited (opened_at "/a" moved_file);
   Class_defined "Mine" moved_inline].
Lemma edited_witness : ~ transparent request_edited (opened_at "/a" moved_file) (after edited_history start).
Proof. eapply opaque_view; [vm_compute; reflexivity|vm_compute; reflexivity|discriminate]. Qed.

(* a dimensionality that the headers do not support, with nothing cached *)
Lemma forced_witness : ~ transparent (request (Some 3)) (opened_at "/a" file_1d) start.
Proof. eapply opaque_view; [vm_compute; reflexivity|vm_compute; reflexivity|discriminate]. Qed.

Lemma binary_pickles : pickles BinaryReelHeader.
Proof. apply single_pickles; [apply binary_reel_format|]. eexists. reflexivity. Qed.

(* histories without changes of classes and rights keep them *)
Definition quiet (ev : event) : Prop := match ev with Class_defined _ _ | Rights_changed _ _ _ => False | _ => True end.
Lemma quiet_keeps evs : forall en, Forall quiet evs -> en_classes (after evs en) = en_classes en /\ en_mkdir (after evs en) = en_mkdir en.
Proof.
  induction evs as [|ev evs IH] using rev_ind; intros en F; [auto|]. apply Forall_app in F. destruct F as (F & Q). inversion Q as [|? ? Q1 _]; subst.
  rewrite after_snoc. destruct (IH en F) as (A & B). set (e := after evs en) in *.
  destruct ev as [m d|c' h|c' h torn|j x|m c'|v|m w u]; cbn [step]; try contradiction; try (split; [exact A|exact B]).
  - destruct (called_cache c' h e) as ([k0|] & R); [|now rewrite R]. destruct R as ((_ & R & _ & R' & _) & _). rewrite R, R'. auto.
  - unfold die. destruct (call_location c' h) as [j|]; [|auto].
    destruct (load_reader j e) as [l en1] eqn:LR. destruct (load_env _ _ _ _ LR) as ((_ & R & _ & R' & _) & _).
    assert (Q2 : en_classes en1 = en_classes en /\ en_mkdir en1 = en_mkdir en) by (rewrite R, R'; auto).
    destruct l as [[?|]|y]; auto. destruct (en_cache en1 j); auto; (destruct (torn && en_mkdir en1 && en_write en1); auto).
Qed.
Lemma files_after evs n : forall en, (forall d, ~ In (File_changed n d) evs) -> en_files (after evs en) n = en_files en n.
Proof.
  induction evs as [|ev evs IH] using rev_ind; intros en F; [auto|]. rewrite after_snoc.
  rewrite <- (IH en) by (intros d I; apply (F d), in_or_app; auto). set (e := after evs en) in *.
  destruct ev as [m d|c' h|c' h torn|j x|m c'|v|m w u]; cbn [step]; try reflexivity.
  - cbn. destruct (fname_eqb n m) eqn:E; [|reflexivity]. elim (F d). apply in_or_app. right. left.
    assert (n = m) as ->; [|reflexivity]. destruct n as [|p|z], m as [|q|z']; cbn in E; try discriminate; auto.
    + apply String.eqb_eq in E. now subst.
    + apply Z.eqb_eq in E. now subst.
  - destruct (called_cache c' h e) as ([k0|] & R); [|now rewrite R]. destruct R as ((R & _) & _). now rewrite R.
  - unfold die. destruct (call_location c' h) as [j|]; [|auto].
    destruct (load_reader j e) as [l en1] eqn:LR. destruct (load_env _ _ _ _ LR) as ((R & _) & _). rewrite <- R.
    destruct l as [[?|]|y]; auto. destruct (en_cache en1 j); auto; (destruct (torn && en_mkdir en1 && en_write en1); auto).
Qed.

Lemma file_kept a b n d en : en_files (after a en) n = Some d -> (forall d', ~ In (File_changed n d') b) -> en_files (after (a ++ b) en) n = Some d.
Proof. intros A B. unfold after. rewrite fold_left_app. fold (after a en). fold (after b (after a en)). now rewrite files_after. Qed.

Lemma file_written a n d en : en_files (after (a ++ [File_changed n (Some d)]) en) n = Some d.
Proof.
  rewrite after_snoc. generalize (after a en). intros e. cbn. assert (E : fname_eqb n n = true); [|now rewrite E].
  destruct n; cbn; [reflexivity|apply String.eqb_refl|apply Z.eqb_refl].
Qed.

Definition ok_reader (o : outcome) : option reader := match fst o with Ok (r, Callers) => Some r | _ => None end.
Lemma ok_reader_ok o : match ok_reader o with Some _ => true | None => false end = true -> exists r, fst o = Ok (r, Callers).
Proof. unfold ok_reader. destruct (fst o) as [[r [|f]]|]; [eauto|discriminate|discriminate]. Qed.
Lemma unreadable_witness : exists (c : call) (h : handle) (en : env) (k : ckey) (r : reader),
  call_location c h = Some k /\ en_cache en k = Unreadable /\ fst (fst (create_reader_cached c h en)) = Err OSError /\
  fst (fst (create_reader_cached (without_cache c) h en)) = Ok (r, Callers).
Proof.
  pose (c := request None). pose (h := opened_at "/a" file_2d).
  assert (K : exists k, call_location c h = Some k) by (eexists; vm_compute; reflexivity). destruct K as (k & K).
  pose (en := set_entry start k Unreadable).
  destruct (ok_reader_ok (fst (create_reader_cached (without_cache c) h en))) as (r & R).
  { rewrite plain_outcome. vm_compute. reflexivity. }
  exists c, h, en, k, r. split; [exact K|]. assert (U : en_cache en k = Unreadable) by apply set_entry_same. split; [exact U|].
  split; [|exact R]. apply location_call in K. destruct K as (e & C & L). rewrite cached_unfold, C, L. cbn [c request ca_bc ca_tc class_of].
  change (en_classes en "BinaryReelHeader") with (Some BinaryReelHeader). change (en_classes en "TraceHeaderRev1") with (Some TraceHeaderRev1).
  cbn [loaded]. unfold load_reader. now rewrite U.
Qed.
Lemma foreign_error c h en k : call_location c h = Some k -> en_cache en k = Foreign ->
  class_of en (ca_bc c) <> None -> class_of en (ca_tc c) <> None -> create_reader_cached c h en = ((Err TypeError, []), en).
Proof.
  intros CL F B T. apply location_call in CL. destruct CL as (e & C & L). rewrite cached_unfold, C, L.
  destruct (class_of en (ca_bc c)); [|congruence]. destruct (class_of en (ca_tc c)); [|congruence].
  cbn [loaded]. unfold load_reader. now rewrite F.
Qed.
Lemma hash_spec args f : exists len, is_length (zlen (f_data f)) len /\
  hash_for_file args f = (Ok (f_data f ++ len ++ concat args), mk_file (f_data f) 0).
Proof. exists (length_bytes (zlen (f_data f))). split; [apply length_bytes_ok, zlen_nonneg|apply hash_ok]. Qed.
Lemma hash_injective f f' c c' e e' x : call_named c -> call_named c' ->
  fst (hash_for_file (hash_args c e) f) = Ok x -> fst (hash_for_file (hash_args c' e') f') = Ok x ->
  f_data f = f_data f' /\ ca_enc c = ca_enc c' /\ class_repr (ca_bc c) = class_repr (ca_bc c') /\
  class_repr (ca_tc c) = class_repr (ca_tc c') /\ e = e'.
Proof.
  intros N N'. rewrite !hash_ok. cbn [fst]. intros [= <-] [= E]. symmetry in E.
  destruct (hashed_inj _ _ _ _ _ _ N N' E) as (A & B & C & D & F).
  assert (CR : forall a b, cls_name a = cls_name b -> class_repr a = class_repr b) by (intros a b H; unfold class_repr; fold (cls_name a); fold (cls_name b); now rewrite H).
  auto 10.
Qed.
Lemma mkdir_witness : exists (c : call) (h : handle) (en : env) (r : reader),
  en_mkdir en = false /\ empty_cache en /\ fst (fst (create_reader_cached c h en)) = Err OSError /\
  fst (fst (create_reader_cached (without_cache c) h en)) = Ok (r, Callers).
Proof.
  pose (c := request None). pose (h := opened_at "/a" file_2d). pose (en := set_rights start false true true).
  destruct (ok_reader_ok (fst (create_reader_cached (without_cache c) h en))) as (r & R).
  { rewrite plain_outcome. vm_compute. reflexivity. }
  exists c, h, en, r. split; [reflexivity|]. split; [intros k; reflexivity|]. split; [vm_compute; reflexivity|exact R].
Qed.
Lemma unwritable_opens c h en k : unusable en k \/ en_cache en k = Missing \/ en_cache en k = NotFile -> call_location c h = Some k ->
  en_mkdir en = true -> en_write en = false -> request_ok c h en -> plain_collections c h en ->
  transparent c h en /\ forall j, j <> k -> en_cache (snd (create_reader_cached c h en)) j = en_cache en j.
Proof.
  intros U CL MK W RQ PC. split; [eapply unusable_opens; eauto|]. intros j J.
  apply location_call in CL. destruct CL as (e & C & L). rewrite cached_unfold, C, L.
  destruct (class_of en (ca_bc c)) as [bc|]; [|reflexivity]. destruct (class_of en (ca_tc c)) as [tc|]; [|reflexivity].
  cbn [loaded]. destruct (load_reader k en) as [l en1] eqn:LR. destruct (load_env _ _ _ _ LR) as ((_ & _ & _ & _ & _ & _ & O) & _).
  destruct l as [[[r f]|]|y]; try (apply O; exact J). unfold build. destruct (scan_file _ _ _ _ _) as [[r|y] w]; [|apply O; exact J].
  destruct (save_reader _ _ _ _ _ _ _) as [u en2] eqn:S. destruct (save_env _ _ _ _ _ _ _ _ _ S) as ((_ & _ & _ & _ & _ & _ & O2) & _).
  destruct u; cbn [snd]; rewrite O2, O; auto.
Qed.
Lemma descriptor_witness : exists (c : call) (h : handle) (en : env) (r : reader),
  ca_dir c = Relative ".segpy" /\ hd_name h = Descriptor 3 /\ fst (fst (create_reader_cached c h en)) = Err TypeError /\
  fst (fst (create_reader_cached (without_cache c) h en)) = Ok (r, Callers).
Proof.
  pose (c := mk_call (Relative ".segpy") (Some ASCII) (Global "BinaryReelHeader") (Global "TraceHeaderRev1") (Some Big) NoProgress None).
  pose (h := mk_handle (Descriptor 3) attrs file_2d).
  destruct (ok_reader_ok (fst (create_reader_cached (without_cache c) h start))) as (r & R).
  { rewrite plain_outcome. vm_compute. reflexivity. }
  exists c, h, start, r. split; [reflexivity|]. split; [reflexivity|]. split; [vm_compute; reflexivity|exact R].
Qed.
Lemma no_name_plain c h en dir : ca_dir c = Relative dir -> hd_name h = NoName ->
  create_reader_cached c h en = (fst (create_reader_cached (without_cache c) h en), en).
Proof.
  intros D N. rewrite plain_outcome, cached_unfold. destruct (checked c h) as [e|y]; [|reflexivity].
  destruct (class_of en (ca_bc c)) as [bc|]; [|reflexivity]. destruct (class_of en (ca_tc c)) as [tc|]; [|reflexivity].
  unfold location. rewrite D, N. cbn [locate_cache_file loaded]. unfold build. destruct (scan_file _ _ _ _ _) as [[r|y] w]; reflexivity.
Qed.
Lemma descriptor_fails c h en dir n r o : ca_dir c = Relative dir -> hd_name h = Descriptor n ->
  fst (fst (create_reader_cached (without_cache c) h en)) = Ok (r, o) ->
  fst (fst (create_reader_cached c h en)) = Err TypeError /\ snd (create_reader_cached c h en) = en.
Proof.
  intros D N. rewrite plain_outcome, cached_unfold. destruct (checked c h) as [e|y]; [|discriminate].
  destruct (class_of en (ca_bc c)) as [bc|]; [|discriminate]. destruct (class_of en (ca_tc c)) as [tc|]; [|discriminate].
  unfold location. rewrite D, N. cbn [locate_cache_file loaded]. intros _. split; reflexivity.
Qed.
Lemma no_name_absolute c h en k : hd_name h = NoName -> call_location c h = Some k -> en_cache en k = Missing \/ en_cache en k = Damaged ->
  en_mkdir en = true -> request_ok c h en -> plain_collections c h en ->
  transparent c h en /\
  (en_cache (snd (create_reader_cached c h en)) k = Missing \/ en_cache (snd (create_reader_cached c h en)) k = Damaged).
Proof.
  intros N CL E MK RQ PC. split.
  - eapply unusable_opens; eauto. destruct E as [E|E]; [tauto|left; now left].
  - destruct (called_cache c h en) as ([j|] & H); [|rewrite H; exact E]. destruct H as (BE & H). cbv zeta in H.
    destruct (key_eqb k j) eqn:KE.
    + apply key_eqb_eq in KE. subst j. destruct H as [-> |[-> |[-> |(e & bc & tc & r & w & s & _ & _ & _ & _ & _ & G & _)]]]; auto.
      destruct (getstate_ok _ _ _ _ _ _ _ G) as (b & t & _ & _ & NN & _). contradiction.
    + destruct BE as (_ & _ & _ & _ & _ & _ & BE). rewrite BE; [exact E|]. intros ->. rewrite key_eqb_refl in KE. discriminate.
Qed.
