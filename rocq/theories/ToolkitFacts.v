(* Facts about the toolkit model: samples, binary headers, scanning a file. *)
From Coq Require Import String ZArith List Bool Sorted ListDec Permutation Lia ZifyBool ZifyNat.
From Verif Require Import Py PyFloat IbmFloat Util Catalog Packing Formats FileIO Text TextIO Float32 Toolkit
  PyFacts Spec_Catalog CatalogFacts Spec_Ibm FloatFacts RoundFacts IbmFacts IbmArith Spec_Packing PackFacts HeaderFacts PackingFacts FormatFacts
  Spec_Text TextIOFacts ExtReadFacts Spec_Segy Float32Facts.
Import ListNotations.
Local Open Scope string_scope.
Open Scope list_scope.
Open Scope Z_scope.

(* ------------------------------------------------------------------ *)
(* the monads *)
Lemma ibind_ok {A B} (m : io A) (k : A -> io B) f a f' : m f = (Ok a, f') -> ibind m k f = k a f'.
Proof. intros H. unfold ibind. now rewrite H. Qed.
Lemma ibind_err {A B} (m : io A) (k : A -> io B) f x f' : m f = (Err x, f') -> ibind m k f = (Err x, f').
Proof. intros H. unfold ibind. now rewrite H. Qed.
Lemma wbind_ok {A B} (m : wio A) (k : A -> wio B) w a w' : m w = (Ok a, w') -> wbind m k w = k a w'.
Proof. intros H. unfold wbind. now rewrite H. Qed.
Lemma wbind_err {A B} (m : wio A) (k : A -> wio B) w x w' : m w = (Err x, w') -> wbind m k w = (Err x, w').
Proof. intros H. unfold wbind. now rewrite H. Qed.
Lemma ibind_inv {A B} (m : io A) (k : A -> io B) f b f' : ibind m k f = (Ok b, f') ->
  exists a f1, m f = (Ok a, f1) /\ k a f1 = (Ok b, f').
Proof. unfold ibind. destruct (m f) as [[a|x] f1]; [eauto|discriminate]. Qed.
Lemma wbind_inv {A B} (m : wio A) (k : A -> wio B) w b w' : wbind m k w = (Ok b, w') ->
  exists a w1, m w = (Ok a, w1) /\ k a w1 = (Ok b, w').
Proof. unfold wbind. destruct (m w) as [[a|x] w1]; [eauto|discriminate]. Qed.
Lemma on_file_ok {A} (m : io A) f log r f' : m f = (r, f') -> on_file m (mk_world f log) = (r, mk_world f' log).
Proof. intros H. unfold on_file. cbn [w_file w_log]. now rewrite H. Qed.
Lemma on_file_inv {A} (m : io A) w r w' : on_file m w = (r, w') -> m (w_file w) = (r, w_file w') /\ w_log w' = w_log w.
Proof. unfold on_file. destruct (m (w_file w)) as [x f] eqn:E. intros H. injection H as <- <-. now cbn. Qed.

(* ------------------------------------------------------------------ *)
(* integer items *)
Lemma unpack_values_total native e c buf m : all_bytes buf -> 0 <= m -> zlen buf = m * ctype_size c ->
  exists vs, unpack_values native e c buf = Ok vs /\ zlen vs = m /\ Forall (in_ctype c) vs /\ pack_values e c vs = Ok buf.
Proof.
  intros HB Hm HL. pose proof (ctype_size_pos c).
  destruct (batched_exact buf (ctype_size c) m ltac:(lia) Hm HL) as (bs & _ & Hn & HF & HC).
  assert (HA : Forall (fun b => all_bytes b /\ zlen b = ctype_size c) bs).
  { clear HL Hn. subst buf. induction bs as [|b bs IH]; constructor; inversion HF; subst.
    - cbn in HB. apply all_bytes_app in HB. tauto.
    - apply IH; [|assumption]. cbn in HB. apply all_bytes_app in HB. tauto. }
  set (vs := map (unpack_int e c) bs).
  assert (HP : map_res (pack_int e c) vs = Ok bs).
  { subst vs. clear - HA. induction HA as [|b bs (HB & HL) HA IH]; [reflexivity|].
    cbn [map map_res]. destruct (pack_unpack_int e c b HB HL) as (-> & _). cbn [bind]. now rewrite IH. }
  assert (HI : Forall (in_ctype c) vs).
  { subst vs. clear - HA. induction HA as [|b bs (HB & HL) HA IH]; [constructor|]. cbn [map]. constructor; [|exact IH].
    now destruct (pack_unpack_int e c b HB HL). }
  assert (PV : pack_values e c vs = Ok buf). { unfold pack_values. rewrite HP. cbn [bind]. now rewrite HC. }
  destruct (unpack_pack_values native e c vs HI) as (b & P & _ & _ & U). rewrite PV in P. injection P as <-.
  exists vs. split; [exact U|]. split; [|now split]. subst vs. now rewrite zlen_map.
Qed.

Lemma stored_of_slice e d a b pos size v : 0 <= a -> 0 <= pos -> a <= b -> b <= zlen d ->
  stored_at e (py_slice d a b) pos size v -> stored_at e d (a + pos) size v.
Proof.
  intros Ha Hp Hab Hb (H1 & H2 & H3). rewrite py_slice_zlen in H2 by lia. split; [lia|]. split; [lia|].
  intros k Hk. specialize (H3 k Hk). rewrite byte_at_slice in H3; [|lia|destruct e; lia].
  rewrite <- H3. f_equal. destruct e; lia.
Qed.

Lemma stored_to_slice e d a b pos size v : 0 <= a -> 0 <= pos -> a + pos + size <= b -> b <= zlen d -> 0 <= size ->
  stored_at e d (a + pos) size v -> stored_at e (py_slice d a b) pos size v.
Proof.
  intros Ha Hp Hab Hb Hs (H1 & H2 & H3). split; [lia|]. split; [rewrite py_slice_zlen by lia; lia|].
  intros k Hk. specialize (H3 k Hk). rewrite byte_at_slice; [|lia|destruct e; lia].
  rewrite <- H3. f_equal. destruct e; lia.
Qed.

Lemma ctype_of_size t : size_in_bytes (ctype_of t) = sample_size t.
Proof. destruct t; reflexivity. Qed.
Lemma sample_size_pos t : 1 <= sample_size t <= 4.
Proof. destruct t; cbn; lia. Qed.

(* unpacking a block of samples *)
Definition block_samples (t : segytype) (e : endian) (buf : list Z) (rs : list real) : Prop :=
  forall i, 0 <= i < zlen rs -> sample_at t e buf (sample_size t * i) (nth (Z.to_nat i) rs (RInt 0)).

Lemma nth_map' {A B} (f : A -> B) l i a b : (i < length l)%nat -> nth i (map f l) b = f (nth i l a).
Proof. intros H. rewrite (nth_indep _ b (f a)) by now rewrite map_length. apply map_nth. Qed.

Lemma unpack_samples_ok native e t buf n : all_bytes buf -> 0 <= n -> zlen buf = sample_size t * n ->
  exists rs, unpack_samples native e (ctype_of t) buf n = Ok rs /\ zlen rs = n /\ block_samples t e buf rs.
Proof.
  intros HB Hn HL.
  assert (INT : forall c, ctype_of t = S_int c -> (forall v, in_ctype c v -> in_sample_type t v) ->
    (forall d p r, sample_at t e d p r <-> exists n, r = RInt n /\ in_sample_type t n /\ stored_at e d p (sample_size t) n) ->
    exists rs, unpack_samples native e (ctype_of t) buf n = Ok rs /\ zlen rs = n /\ block_samples t e buf rs).
  { intros c EC IT SA. assert (ES : ctype_size c = sample_size t) by (rewrite <- ctype_of_size, EC; reflexivity).
    destruct (unpack_values_total native e c buf n HB Hn ltac:(lia)) as (vs & U & L & F & P).
    exists (map RInt vs). rewrite EC. cbn [unpack_samples]. rewrite U. cbn [rmap]. split; [reflexivity|].
    rewrite zlen_map. split; [exact L|]. intros i Hi. rewrite zlen_map in Hi. apply SA.
    rewrite (nth_map' RInt vs (Z.to_nat i) 0) by (unfold zlen in Hi; lia).
    eexists. split; [reflexivity|]. split.
    - apply IT. rewrite Forall_forall in F. apply F. apply nth_In. unfold zlen in Hi; lia.
    - pose proof (pack_values_stored e c vs buf P i Hi) as ST. rewrite <- ctype_size_spec, ES in ST.
      now rewrite Z.mul_comm. }
  destruct t; try (apply INT with (1 := eq_refl); [intros v H; exact H|intros d p r; reflexivity]).
  - clear INT. cbn [ctype_of unpack_samples sample_size] in *.
    destruct (unpack_values_total native e C_I buf n HB Hn ltac:(cbn; lia)) as (vs & U & L & F & P).
    exists (map (fun b => RFloat (f32_decode b)) vs). rewrite U. cbn [rmap]. split; [reflexivity|].
    rewrite zlen_map. split; [exact L|]. intros i Hi. rewrite zlen_map in Hi.
    rewrite (nth_map' (fun b => RFloat (f32_decode b)) vs (Z.to_nat i) 0) by (unfold zlen in Hi; lia).
    cbn [sample_at sample_size]. exists (nth (Z.to_nat i) vs 0), (f32_decode (nth (Z.to_nat i) vs 0)). split; [reflexivity|].
    split.
    + pose proof (pack_values_stored e C_I vs buf P i Hi) as ST. cbn in ST. now rewrite Z.mul_comm.
    + apply decode_single. rewrite Forall_forall in F. apply F. apply nth_In. unfold zlen in Hi; lia.
  - clear INT. cbn [ctype_of unpack_samples sample_size] in *.
    destruct (unpack_pack buf n HB ltac:(lia)) as (ws & U & L & F & B & _).
    exists (map RIbm ws). rewrite U. cbn [rmap]. split; [reflexivity|]. rewrite zlen_map. split; [exact L|].
    intros i Hi. rewrite zlen_map in Hi.
    rewrite (nth_map' RIbm ws (Z.to_nat i) IBM_ZERO) by (unfold zlen in Hi; lia).
    cbn [sample_at sample_size]. eexists. split; [reflexivity|]. split.
    { rewrite Forall_forall in F. apply F. apply nth_In. unfold zlen in Hi; lia. }
    split; [lia|]. split; [lia|]. subst buf.
    assert (G : forall ws k, (k < length ws)%nat -> forall j, (j < 4)%nat ->
      nth (4 * k + j) (flat_map ibm_bytes ws) 0 = nth j (ibm_bytes (nth k ws IBM_ZERO)) 0).
    { clear. induction ws as [|w ws IH]; intros k Hk j Hj; [cbn in Hk; lia|]. cbn [flat_map]. destruct k as [|k].
      - rewrite app_nth1; [reflexivity|]. destruct w; cbn; lia.
      - rewrite app_nth2; [|destruct w; cbn; lia].
        replace (4 * Datatypes.S k + j - length (ibm_bytes w))%nat with (4 * k + j)%nat by (destruct w; cbn; lia).
        cbn [nth]. apply IH; [cbn in Hk; lia|exact Hj]. }
    assert (G' : forall j, 0 <= j < 4 -> byte_at (flat_map ibm_bytes ws) (4 * i + j) =
              nth (Z.to_nat j) (ibm_bytes (nth (Z.to_nat i) ws IBM_ZERO)) 0).
    { intros j Hj. unfold byte_at. replace (Z.to_nat (4 * i + j)) with (4 * Z.to_nat i + Z.to_nat j)%nat by lia.
      apply G; [unfold zlen in Hi; lia|lia]. }
    rewrite <- (Z.add_0_r (4 * i)) at 1. rewrite !G' by lia. destruct (nth (Z.to_nat i) ws IBM_ZERO); cbn. auto.
Qed.

Lemma sample_of_slice t e d a b pos r : 0 <= a -> 0 <= pos -> a <= b -> b <= zlen d ->
  sample_at t e (py_slice d a b) pos r -> sample_at t e d (a + pos) r.
Proof.
  intros Ha Hp Hab Hb. destruct t; cbn [sample_at].
  1-6: (intros (n & -> & I & ST); exists n; split; [reflexivity|]; split; [exact I|];
       eapply stored_of_slice; [exact Ha|exact Hp|exact Hab|exact Hb|exact ST]).
  - intros (bits & f & -> & ST & S). exists bits, f. split; [reflexivity|]. split; [|exact S].
    eapply stored_of_slice; [exact Ha|exact Hp|exact Hab|exact Hb|exact ST].
  - intros (w & -> & W & P & L & B). rewrite py_slice_zlen in L by lia. exists w. split; [reflexivity|]. split; [exact W|].
    split; [lia|]. split; [lia|]. rewrite !byte_at_slice in B by lia. now rewrite <- !Z.add_assoc.
Qed.

Lemma read_opt_some n d q : 0 <= n -> 0 <= q ->
  read_opt (Some n) (mk_file d q) = (Ok (py_slice d q (q + n)), mk_file d (q + zlen (py_slice d q (q + n)))).
Proof. intros Hn Hq. cbn [read_opt]. destruct (n <? 0) eqn:E; [lia|]. reflexivity. Qed.

Lemma seek_ok p f : 0 <= p -> seek p f = (Ok tt, mk_file (f_data f) p).
Proof. intros H. unfold seek. destruct (p <? 0) eqn:E; [lia|reflexivity]. Qed.

Lemma read_values_ok native pos t n e d q : all_bytes d -> 0 <= pos -> 0 <= n ->
  n = 0 \/ pos + sample_size t * n <= zlen d ->
  exists rs q', read_binary_values native (Some pos) t n e (mk_file d q) = (Ok rs, mk_file d q') /\ zlen rs = n /\
    samples_at t e d pos rs.
Proof.
  intros HB Hp Hn HL. pose proof (sample_size_pos t). unfold read_binary_values. rewrite ctype_of_size.
  erewrite ibind_ok by reflexivity. erewrite ibind_ok by (apply seek_ok; exact Hp).
  erewrite ibind_ok by (apply read_opt_some; [nia|exact Hp]).
  set (b := py_slice (f_data _) _ _). cbn [f_data] in b.
  assert (L : zlen b = sample_size t * n).
  { subst b. destruct HL as [->|HL].
    - rewrite zlen_py_slice by nia. lia.
    - rewrite py_slice_zlen by nia. lia. }
  destruct (zlen b <? sample_size t * n) eqn:E; [lia|]. clear E.
  destruct (unpack_samples_ok native e t b n ltac:(now apply all_bytes_slice) Hn L) as (rs & U & LR & ST).
  erewrite ibind_ok by (unfold lift; rewrite U; reflexivity). rewrite LR, Z.eqb_refl.
  eexists rs, _. split; [reflexivity|]. split; [exact LR|]. intros i Hi. specialize (ST i Hi).
  destruct HL as [->|HL]; [lia|]. eapply sample_of_slice in ST; [exact ST|exact Hp|nia|nia|exact HL].
Qed.

Lemma read_values_eof native pos t n e d q : 0 <= pos -> 0 < n -> zlen d < pos + sample_size t * n ->
  exists q', read_binary_values native (Some pos) t n e (mk_file d q) = (Err EOFError, mk_file d q').
Proof.
  intros Hp Hn HL. pose proof (sample_size_pos t). unfold read_binary_values. rewrite ctype_of_size.
  erewrite ibind_ok by reflexivity. erewrite ibind_ok by (apply seek_ok; exact Hp).
  erewrite ibind_ok by (apply read_opt_some; [nia|exact Hp]).
  rewrite zlen_py_slice by nia. cbn [f_data].
  destruct (_ <? sample_size t * n) eqn:E; [|nia]. eexists. reflexivity.
Qed.

(* ------------------------------------------------------------------ *)
(* writing samples *)
Definition item_pack (e : endian) (c : sampletype) (r : real) : res (list Z) :=
  match c with
  | S_int c => pack_int_sample e c r
  | S_f => f32_pack e r
  | S_ibm => rmap ibm_bytes (from_float r)
  end.

Lemma pack_samples_items e c rs : pack_samples e c rs = (do bs <- map_res (item_pack e c) rs ;; Ok (concat bs)).
Proof.
  destruct c; [reflexivity|reflexivity|]. cbn [pack_samples]. unfold ibm_pack.
  assert (G : map_res (item_pack e S_ibm) rs = rmap (map ibm_bytes) (map_res from_float rs)).
  { induction rs as [|r rs IH]; [reflexivity|]. cbn [map_res]. rewrite IH. cbn [item_pack].
    destruct (from_float r); cbn [rmap bind]; [|reflexivity]. now destruct (map_res from_float rs). }
  rewrite G. destruct (map_res from_float rs) as [ws|x]; cbn [rmap bind]; [|reflexivity]. now rewrite flat_map_concat_map.
Qed.

Lemma sample_embed t e pre b post pos r : 0 <= pos -> sample_at t e b pos r -> sample_at t e (pre ++ b ++ post) (zlen pre + pos) r.
Proof.
  intros Hp H.
  assert (ST : forall size v, 0 <= size -> stored_at e b pos size v -> stored_at e (pre ++ b ++ post) (zlen pre + pos) size v).
  { intros size v Hs H'. apply stored_shift; [exact Hp|]. destruct H' as (H1 & H2 & H3). split; [exact H1|].
    split; [rewrite zlen_app; pose proof (zlen_nonneg post); lia|].
    intros k Hk. rewrite byte_at_app1; [now apply H3|destruct e; lia]. }
  destruct t; cbn [sample_at] in *.
  1-6: (destruct H as (n & -> & I & S); exists n; split; [reflexivity|]; split; [exact I|]; apply ST; [cbn; lia|exact S]).
  - destruct H as (bits & f & -> & S & I). exists bits, f. split; [reflexivity|]. split; [|exact I]. apply ST; [lia|exact S].
  - destruct H as (w & -> & W & P & L & B). exists w. split; [reflexivity|]. split; [exact W|].
    pose proof (zlen_nonneg pre). pose proof (zlen_nonneg post). split; [lia|]. split; [rewrite !zlen_app; lia|].
    assert (G : forall j, 0 <= j < zlen b -> byte_at (pre ++ b ++ post) (zlen pre + j) = byte_at b j).
    { intros j Hj. rewrite byte_at_app2, byte_at_app1 by lia. f_equal. lia. }
    rewrite <- !Z.add_assoc, !G by lia. exact B.
Qed.

Lemma nearest_bound g N M : float_wf g -> rounds_to N 1 g -> forall m, float_wf m -> finite m -> units m = M ->
  Z.abs N <= M -> Z.abs (units g) <= M.
Proof.
  intros _ (_ & _ & H) m Hm Fm Um HN.
  assert (Z0 : 0 <= M) by lia.
  pose proof (H m Hm Fm) as (A & _).
  assert (Hm' : float_wf (SFopp m)) by now apply opp_wf.
  assert (Fm' : finite (SFopp m)) by now apply opp_finite.
  pose proof (H (SFopp m) Hm' Fm') as (B & _). rewrite opp_units in B. rewrite Um in *. lia.
Qed.

Definition limit_float : float := S754_finite false 9007198986305536 (128 - 53).
Lemma limit_float_ok : float_wf limit_float /\ finite limit_float /\ units limit_float = single_limit.
Proof. split; [vm_compute; reflexivity|]. split; [exact I|]. vm_compute. reflexivity. Qed.
Definition below_limit : float := S754_finite false 9007198986305535 (128 - 53).
Definition half_gap : Z := 2 ^ 74 * 2 ^ 1074.
Lemma below_ok : float_wf below_limit /\ finite below_limit /\ units below_limit = single_limit - 2 * half_gap.
Proof. split; [vm_compute; reflexivity|]. split; [exact I|]. vm_compute. reflexivity. Qed.
Lemma gap_pos : 0 < half_gap /\ 4 * half_gap < single_limit.
Proof. split; vm_compute; reflexivity. Qed.
Lemma int_below g N : rounds_to N 1 g -> Z.abs N < single_limit - half_gap -> Z.abs (units g) < single_limit.
Proof.
  intros (_ & _ & H) HN. destruct below_ok as (W & F & U). destruct (H _ W F) as (A & _).
  destruct (H (SFopp below_limit)) as (B & _); [now apply opp_wf|now apply opp_finite|].
  rewrite opp_units in B. rewrite U in *. destruct gap_pos. lia.
Qed.
Lemma grid f : float_wf f -> finite f -> Z.abs (units f) < single_limit -> Z.abs (units f) <= single_limit - 2 * half_gap.
Proof.
  intros W F. destruct f as [s|s| |s m e]; try (destruct F; fail); cbn [units].
  - destruct gap_pos. lia.
  - apply bounded_spec in W. destruct W as (A & B & C). rewrite Z.abs_mul.
    replace (Z.abs (if s then -1 else 1)) with 1 by (destruct s; reflexivity). rewrite Z.mul_1_l, Z.abs_eq by (apply Z.mul_nonneg_nonneg; [lia|apply Z.pow_nonneg; lia]).
    assert (EL : single_limit = 9007198986305536 * 2 ^ (75 + 1074)) by (vm_compute; reflexivity).
    assert (EG : single_limit - 2 * half_gap = 9007198986305535 * 2 ^ (75 + 1074)) by (vm_compute; reflexivity).
    rewrite EG, EL. destruct (Z.le_gt_cases 75 e) as [E|E].
    + replace (e + 1074) with ((e - 75) + (75 + 1074)) by lia. rewrite (Z.pow_add_r 2 (e - 75)) by lia. rewrite Z.mul_assoc.
      intros L. apply Z.mul_lt_mono_pos_r in L; [|apply Z.pow_pos_nonneg; lia]. apply Z.mul_le_mono_nonneg_r; [apply Z.pow_nonneg; lia|]. lia.
    + intros _. apply Z.le_trans with (2 ^ 53 * 2 ^ (74 + 1074)).
      * apply Z.mul_le_mono_nonneg; [lia|lia|apply Z.pow_nonneg; lia|apply Z.pow_le_mono_r; lia].
      * vm_compute. discriminate.
Qed.
Lemma int_above g N : rounds_to N 1 g -> single_limit - half_gap <= Z.abs N -> single_limit <= Z.abs (units g).
Proof.
  intros (Wg & Fg & H) HN. destruct (Z.le_gt_cases single_limit (Z.abs (units g))) as [|LT]; [assumption|exfalso].
  pose proof (grid g Wg Fg LT) as LE. destruct limit_float_ok as (W & F & U). destruct below_ok as (W' & F' & U'). destruct gap_pos as (G0 & G1).
  assert (OP : forall f, float_wf f -> finite f -> float_wf (SFopp f) /\ finite (SFopp f)) by (intros; split; [now apply opp_wf|now apply opp_finite]).
  assert (C : Z.abs (units g) = single_limit - 2 * half_gap /\ even_significand g).
  { destruct (OP _ W F) as (Wo & Fo).
    pose proof (H _ W F) as (A1 & A2). pose proof (H _ Wo Fo) as (B1 & B2). rewrite opp_units in B1, B2. rewrite U in *.
    destruct (Z.le_gt_cases 0 N) as [S|S].
    - split; [lia|]. apply A2; lia.
    - split; [lia|]. apply B2; lia. }
  destruct C as (C1 & C2). assert (C3 : units g = units below_limit \/ units g = units (SFopp below_limit)) by (rewrite opp_units, U'; lia).
  destruct g as [s|s| |s m e]; try (destruct Fg; fail).
  - cbn [units] in C1. lia.
  - assert (Q : exists t, S754_finite s m e = S754_finite t 9007198986305535 75).
    { destruct C3 as [C3|C3]; [exists false|exists true]; (apply units_inj; [exact Wg|vm_compute; reflexivity|exact C3]). }
    destruct Q as (t & Q). injection Q as _ Q _. rewrite Q in C2. cbn in C2. discriminate.
Qed.
Lemma f_of_int_rounds n : Z.abs n <= 2 ^ 128 -> exists g, f_of_int n = Ok g /\ rounds_to (n * 2 ^ 1074) 1 g.
Proof.
  intros H. pose proof (binary_normalize_nearest n 0 ltac:(lia)) as R. change (0 + 1074) with 1074 in R.
  assert (B : Z.abs n * 2 ^ 1074 < 2 ^ (1023 + 1074)).
  { rewrite Z.pow_add_r by lia. apply Z.mul_lt_mono_pos_r; [lia|]. eapply Z.le_lt_trans; [exact H|]. apply Z.pow_lt_mono_r; lia. }
  specialize (R B). exists (binary_normalize 53 1024 n 0 false). split; [|exact R].
  unfold f_of_int. destruct R as (_ & F & _). destruct (binary_normalize 53 1024 n 0 false); try reflexivity. destruct F.
Qed.

Lemma encode_total f : float_wf f -> (finite f -> Z.abs (units f) < single_limit) -> exists b, f32_encode f = Ok b.
Proof.
  intros W H. destruct (f32_encode f) as [b|x] eqn:E; [eauto|]. exfalso.
  destruct f as [s|s| |s m e].
  - discriminate E.
  - discriminate E.
  - discriminate E.
  - destruct (encode_overflow (S754_finite s m e) W I) as (A & B). pose proof (B x E) as ->.
    apply A in E. specialize (H I). exact (Z.lt_irrefl _ (Z.lt_le_trans _ _ _ H E)).
Qed.

Lemma word_bytes_stored t e w : t = T_IBM -> word_ok w -> sample_at t e (ibm_bytes w) 0 (RIbm w).
Proof. intros -> W. cbn [sample_at]. exists w. destruct w. cbn. unfold zlen; cbn. do 4 (split; [(exact W || reflexivity || lia)|]); auto. Qed.

Lemma ibm_bytes_all w : word_ok w -> all_bytes (ibm_bytes w).
Proof. intros (A & B & C & D). repeat constructor; lia. Qed.

Lemma store_float e f b : float_wf f -> f32_encode f = Ok b -> exists buf,
  pack_int e C_I b = Ok buf /\ zlen buf = 4 /\ all_bytes buf /\ sample_at T_FLOAT32 e buf 0 (RFloat (f32_decode b)) /\
  (finite f -> nearest_single f (f32_decode b)) /\ (~ finite f \/ (exists bits, is_single bits f) -> f32_decode b = f).
Proof.
  intros W E. pose proof (encode_range f b E) as R.
  destruct (pack_int e C_I b) as [buf|x] eqn:P.
  2: { rewrite (pack_int_ok e C_I b R) in P. discriminate. }
  exists buf. split; [reflexivity|]. destruct (pack_int_inv e C_I b buf P) as (_ & L & B). split; [exact L|]. split; [exact B|].
  pose proof (decode_single b R) as D. split.
  { cbn [sample_at]. exists b, (f32_decode b). split; [reflexivity|]. split; [|exact D]. exact (pack_int_stored e C_I b buf P). }
  split. { intros F. now destruct (encode_nearest f b W F E). }
  intros [NF|(bits & S)].
  - destruct f as [s|s| |s m x]; [now destruct NF| | |now destruct NF].
    + cbn in E. injection E as <-. destruct s; vm_compute; reflexivity.
    + cbn in E. injection E as <-. vm_compute. reflexivity.
  - assert (RB : 0 <= bits < 2 ^ 32) by apply S.
    pose proof (single_unique bits f (f32_decode bits) S (decode_single bits RB)) as EQ.
    destruct f as [s|s| |s m x].
    3: { cbn in E. injection E as <-. vm_compute. reflexivity. }
    all: (assert (NN : f32_decode bits <> S754_nan) by (rewrite <- EQ; discriminate);
      pose proof (encode_decode bits RB NN) as EN; rewrite <- EQ, E in EN; injection EN as ->; now symmetry).
Qed.

Lemma store_one e t r : storable t r -> exists b r', item_pack e (ctype_of t) r = Ok b /\ zlen b = sample_size t /\
  all_bytes b /\ stored_as t r r' /\ sample_at t e b 0 r'.
Proof.
  intros H.
  assert (INT : forall c n, ctype_of t = S_int c -> r = RInt n -> in_ctype c n -> in_sample_type t n ->
     stored_as t r r -> (forall d p r, (exists n, r = RInt n /\ in_sample_type t n /\ stored_at e d p (sample_size t) n) -> sample_at t e d p r) ->
     exists b r', item_pack e (ctype_of t) r = Ok b /\ zlen b = sample_size t /\ all_bytes b /\ stored_as t r r' /\ sample_at t e b 0 r').
  { intros c n EC -> IC IT SA ME. rewrite EC. cbn [item_pack pack_int_sample].
    destruct (pack_int e c n) as [b|x] eqn:P; [|rewrite (pack_int_ok e c n IC) in P; discriminate].
    destruct (pack_int_inv e c n b P) as (_ & L & B). exists b, (RInt n). split; [reflexivity|].
    assert (ES : ctype_size c = sample_size t) by (rewrite <- ctype_of_size, EC; reflexivity).
    split; [congruence|]. split; [exact B|]. split; [exact SA|]. apply ME. exists n. split; [reflexivity|]. split; [exact IT|].
    rewrite <- ES. exact (pack_int_stored e c n b P). }
  destruct t.
  1-6: (destruct r as [f|n|w]; [destruct H| |destruct H]; eapply INT with (1 := eq_refl) (2 := eq_refl);
        [exact H|exact H|reflexivity|intros ? ? ? X; exact X]).
  - clear INT. cbn [ctype_of item_pack sample_size]. destruct r as [f|n|w]; cbn [storable] in H.
    + destruct H as (W & L). destruct (encode_total f W L) as (b & E).
      destruct (store_float e f b W E) as (buf & P & Z4 & B & S & N & X).
      exists buf, (RFloat (f32_decode b)). unfold f32_pack, as_double. cbn [bind]. rewrite E. cbn [bind].
      split; [exact P|]. split; [exact Z4|]. split; [exact B|]. split; [|exact S]. cbn [stored_as]. eexists. split; [reflexivity|]. now split.
    + destruct (f_of_int_rounds n) as (g & G & R). { clear - H. unfold int_limit in H. lia. }
      assert (Wg : float_wf g) by apply R. assert (Fg : finite g) by apply R.
      assert (LB : Z.abs (units g) < single_limit).
      { apply (int_below g _ R). rewrite Z.abs_mul, (Z.abs_eq (2 ^ 1074)) by (apply Z.pow_nonneg; lia).
        replace (single_limit - half_gap) with (int_limit * 2 ^ 1074) by (vm_compute; reflexivity).
        apply Z.mul_lt_mono_pos_r; [apply Z.pow_pos_nonneg; lia|exact H]. }
      destruct (encode_total g Wg) as (b & E). { intros _. exact LB. }
      destruct (store_float e g b Wg E) as (buf & P & Z4 & B & S & N & X).
      exists buf, (RFloat (f32_decode b)). unfold f32_pack, as_double. rewrite G. cbn [bind]. rewrite E. cbn [bind].
      split; [exact P|]. split; [exact Z4|]. split; [exact B|]. split; [|exact S]. cbn [stored_as]. eexists. split; [reflexivity|].
      exists g. split; [exact R|]. now apply N.
    + destruct H as (W & L). destruct (decoded_wf w W) as (Wg & Fg). pose proof (decoded_units w W) as U.
      destruct (encode_total (decoded w) Wg) as (b & E). { intros _. rewrite U. exact L. }
      destruct (store_float e (decoded w) b Wg E) as (buf & P & Z4 & B & S & N & X).
      exists buf, (RFloat (f32_decode b)). unfold f32_pack, as_double. rewrite (ibm_float_spec w W). cbn [bind]. rewrite E. cbn [bind].
      split; [exact P|]. split; [exact Z4|]. split; [exact B|]. split; [|exact S]. cbn [stored_as]. eexists. split; [reflexivity|].
      exists (decoded w). repeat (split; [assumption|]). now apply N.
  - clear INT. cbn [ctype_of item_pack sample_size].
    assert (G : forall w, from_float r = Ok w -> word_ok w -> stored_as T_IBM r (RIbm w) ->
      exists b r', rmap ibm_bytes (from_float r) = Ok b /\ zlen b = 4 /\ all_bytes b /\ stored_as T_IBM r r' /\ sample_at T_IBM e b 0 r').
    { intros w E W S. exists (ibm_bytes w), (RIbm w). rewrite E. split; [reflexivity|]. split; [reflexivity|].
      split; [now apply ibm_bytes_all|]. split; [exact S|]. now apply word_bytes_stored. }
    destruct r as [f|n|w]; cbn [storable] in H.
    + destruct H as (W & F & L). destruct (encode_errors f W) as (E1 & E2 & E3 & E4). cbn [from_float] in *.
      destruct (ieee2ibm f) as [w|x] eqn:E.
      * destruct (encode_ok f w W E) as (_ & _ & T & _). apply (G w eq_refl); [apply T|]. cbn [stored_as]. eauto.
      * exfalso. destruct (E4 x eq_refl) as [ -> |[ -> | -> ]].
        -- now apply E1.
        -- destruct (proj1 E2 eq_refl) as (_ & A). destruct L as [L|L]; [|lia]. rewrite L in A. vm_compute in A. discriminate.
        -- destruct (proj1 E3 eq_refl) as (_ & A). destruct L as [L|L]; [|lia]. rewrite L in A. vm_compute in A. destruct A. discriminate.
    + destruct (ieee2ibm_int_spec n) as (A & _). cbn [from_float] in *.
      assert (HM : Z.abs n <= MAX_IBM_INT).
      { assert (EM : ibm_max = MAX_IBM_INT * 2 ^ 1074) by (vm_compute; reflexivity).
        rewrite EM, Z.abs_mul in H. rewrite (Z.abs_eq (2 ^ 1074)) in H by (apply Z.pow_nonneg; lia).
        eapply Z.mul_le_mono_pos_r; [|exact H]. apply Z.pow_pos_nonneg; lia. }
      destruct (A HM) as (g & w & R & E & T). apply (G w E); [apply T|]. cbn [stored_as]. eexists. split; [reflexivity|]. exists g. now split.
    + apply (G w eq_refl H). cbn [stored_as]. eauto.
Qed.

Lemma store_all e t rs : Forall (storable t) rs -> exists b rs', pack_samples e (ctype_of t) rs = Ok b /\
  zlen b = sample_size t * zlen rs /\ all_bytes b /\ Forall2 (stored_as t) rs rs' /\ block_samples t e b rs'.
Proof.
  intros H. rewrite pack_samples_items.
  assert (G : exists bs rs', map_res (item_pack e (ctype_of t)) rs = Ok bs /\ zlen (concat bs) = sample_size t * zlen rs /\
    all_bytes (concat bs) /\ Forall2 (stored_as t) rs rs' /\ block_samples t e (concat bs) rs').
  { induction H as [|r rs Hr H (bs & rs' & M & L & B & S & BS)].
    - exists [], []. repeat split; [cbn; unfold zlen; cbn; lia|constructor|constructor|]. intros i Hi. unfold zlen in Hi; cbn in Hi; lia.
    - destruct (store_one e t r Hr) as (b & r' & P & Lb & Bb & Sb & At). exists (b :: bs), (r' :: rs').
      cbn [map_res]. rewrite P. cbn [bind]. rewrite M. cbn [bind]. split; [reflexivity|]. cbn [concat].
      split; [rewrite zlen_app, zlen_cons; nia|]. split; [now apply all_bytes_app|]. split; [now constructor|].
      intros i Hi. rewrite zlen_cons in Hi. pose proof (sample_size_pos t). destruct (Z.eq_dec i 0) as [->|Hi0].
      + rewrite Z.mul_0_r. cbn [Z.to_nat nth]. apply (sample_embed t e [] b (concat bs) 0 r' ltac:(lia) At).
      + replace (Z.to_nat i) with (Datatypes.S (Z.to_nat (i - 1))) by lia. cbn [nth].
        specialize (BS (i - 1) ltac:(lia)). apply (sample_embed t e b _ []) in BS; [|nia]. rewrite app_nil_r in BS.
        replace (sample_size t * i) with (zlen b + sample_size t * (i - 1)) by nia. exact BS. }
  destruct G as (bs & rs' & M & G). exists (concat bs), rs'. rewrite M. cbn [bind]. split; [reflexivity|exact G].
Qed.

Lemma sample_unique t e d p r r' : sample_at t e d p r -> sample_at t e d p r' -> r = r'.
Proof.
  assert (INT : forall c, ctype_of t = S_int c -> (forall v, in_sample_type t v -> in_ctype c v) ->
    (exists n, r = RInt n /\ in_sample_type t n /\ stored_at e d p (sample_size t) n) ->
    (exists n, r' = RInt n /\ in_sample_type t n /\ stored_at e d p (sample_size t) n) -> r = r').
  { intros c EC IT (n & -> & I1 & S1) (m & -> & I2 & S2). f_equal.
    assert (ES : ctype_size c = sample_size t) by (rewrite <- ctype_of_size, EC; reflexivity). rewrite <- ES in *.
    exact (stored_unique e d p c n m (IT n I1) (IT m I2) S1 S2). }
  destruct t; try (apply INT with (1 := eq_refl); intros v H; exact H).
  - clear INT. cbn [sample_at]. intros (b & f & -> & S & I) (b' & f' & -> & S' & I'). f_equal.
    assert (b = b') as <-. { apply (stored_unique e d p C_I b b'); [apply I|apply I'|exact S|exact S']. }
    exact (single_unique b f f' I I').
  - clear INT. cbn [sample_at]. intros (w & -> & _ & _ & _ & A0 & A1 & A2 & A3) (w' & -> & _ & _ & _ & B0 & B1 & B2 & B3).
    f_equal. destruct w, w'. cbn in *. congruence.
Qed.

Lemma samples_unique t e d p rs rs' : zlen rs = zlen rs' -> samples_at t e d p rs -> samples_at t e d p rs' -> rs = rs'.
Proof.
  intros L A B. apply (nth_ext _ _ (RInt 0) (RInt 0)); [unfold zlen in L; lia|]. intros i Hi.
  specialize (A (Z.of_nat i)). specialize (B (Z.of_nat i)). rewrite Nat2Z.id in *.
  eapply sample_unique; [apply A|apply B]; unfold zlen in *; lia.
Qed.

Lemma samples_embed t e pre b post rs : block_samples t e b rs -> samples_at t e (pre ++ b ++ post) (zlen pre) rs.
Proof. intros H i Hi. pose proof (sample_size_pos t). apply sample_embed; [nia|now apply H]. Qed.

(* ------------------------------------------------------------------ *)
(* scanning *)
Lemma field_unique c f g : class_ok c -> is_field c f -> is_field c g -> fd_name f = fd_name g -> f = g.
Proof.
  intros C F G E. apply (is_field_class c f C) in F. apply (is_field_class c g C) in G. rewrite E in F. congruence.
Qed.

Lemma field_at_unique c e d p n v v' : class_ok c -> field_at c e d p n v -> field_at c e d p n v' -> v = v'.
Proof.
  intros C (f & F & E & _ & I & S) (f' & F' & E' & _ & I' & S'). assert (f = f') as <- by (apply (field_unique c f f' C F F'); congruence).
  unfold field_size in *. rewrite <- ctype_size_spec in *. exact (stored_unique e d _ _ v v' I I' S S').
Qed.

Lemma field_at_bad c e d p n v : class_ok c -> field_at c e d p n v -> ~ bad_field_at c e d p n.
Proof.
  intros C (f & F & E & A & I & S) (f' & v' & F' & E' & A' & I' & S').
  assert (f = f') as <- by (apply (field_unique c f f' C F F'); congruence).
  unfold field_size in *. rewrite <- ctype_size_spec in *. rewrite (stored_unique e d _ _ v v' I I' S S') in A. contradiction.
Qed.

Definition catalog_names : list string := ["file_sequence_num"; "ensemble_num"; "num_samples"; "inline_number"; "crossline_number"].

Lemma trace_format_order c : trace_format c ->
  (forall n, In n catalog_names -> exists f, is_field c f /\ fd_name f = n) /\
  (forall f g ns1 ns2 ns3, catalog_names = ns1 ++ fd_name f :: ns2 ++ fd_name g :: ns3 -> is_field c f -> is_field c g ->
     fd_offset f < fd_offset g).
Proof.
  intros (_ & F1 & F2 & F3 & F4 & F5 & B1 & B2 & B3 & B4 & B5 & B6 & B7 & B8 & B9 & B10 & _). split.
  - intros n [<-|[<-|[<-|[<-|[<-|[]]]]]]; assumption.
  - intros f g ns1 ns2 ns3 E If Ig.
    assert (S : StronglySorted (before c) catalog_names) by (repeat constructor; assumption).
    exact (sorted_to_positions _ _ _ _ _ _ _ S E f g If Ig eq_refl eq_refl).
Qed.

Lemma catalog_packer c e : trace_format c -> exists sub p,
  sub_format "CatalogSubFormat" c catalog_field_names = Ok sub /\ make_header_packer sub e = Ok p /\
  forall buf, all_bytes buf -> zlen buf = 240 ->
    (exists h, pk_unpack p buf = Ok h /\ forall n, In n catalog_names -> exists v, hdr_get h n = Ok v /\ field_at c e buf 0 n v) \/
    (pk_unpack p buf = Err ValueError /\ exists n, In n catalog_names /\ bad_field_at c e buf 0 n).
Proof.
  intros T. destruct (trace_format_order c T) as (HF & HO). destruct T as ((C & TF & ST & OR & LEN & MK) & _).
  destruct (sub_format_ok "CatalogSubFormat" c catalog_field_names (class_ok_levels c C) HF) as (sub & fs & SF & LV & ND & SO).
  pose proof (sub_class_ok sub c _ _ fs C LV ND SO) as SC.
  pose proof (sub_in_order c _ _ sub (class_ok_levels c C) HF HO SF) as SI.
  destruct (MK e) as (p0 & P0). destruct SO as (S1 & S2 & S3).
  assert (EF : exists f, is_field sub f).
  { destruct (HF "num_samples" ltac:(cbn; tauto)) as (f & F & N). exists f. apply S3. split; [exact F|]. rewrite N. cbn. tauto. }
  destruct (sub_compiles sub c _ e p0 240 C SC (conj S1 (conj S2 S3)) LEN P0 EF) as (p & P).
  exists sub, p. split; [exact SF|]. split; [exact P|]. intros buf B L.
  assert (SS : starts_ok sub). { intros f F. rewrite S1. apply ST. now apply S3. }
  assert (FP : forall f, field_pos sub f = field_pos c f) by (intros f; unfold field_pos; now rewrite S1).
  destruct (unpack_iff sub e p buf SC SS (or_intror SI) P B) as [(h & U & _ & H & HB)|(U & R)].
  - left. exists h. split; [exact U|]. intros n N. destruct (HF n N) as (f & F & E).
    destruct (HB f) as (v & G & A & I & S). { apply S3. split; [exact F|]. now rewrite E. }
    exists v. rewrite <- E. split; [exact G|]. exists f. rewrite FP in S. auto.
  - right. split; [exact U|]. destruct R as [R|(f & v & F & I & S & A)].
    + exfalso. apply R. unfold header_length. rewrite S2, LEN. exact L.
    + apply S3 in F. destruct F as (F & N). exists (fd_name f). split; [exact N|]. exists f, v. rewrite FP in S. auto.
Qed.

Lemma field_of_slice c e d q n v : starts_ok c -> 0 <= q -> q + 240 <= zlen d ->
  field_at c e (py_slice d q (q + 240)) 0 n v -> field_at c e d q n v.
Proof.
  intros ST Hq L (f & F & E & A & I & S). exists f. repeat (split; [assumption|]).
  apply (stored_of_slice e d q (q + 240)); try lia; [|exact S]. specialize (ST f F). unfold field_pos. lia.
Qed.
Lemma bad_of_slice c e d q n : starts_ok c -> 0 <= q -> q + 240 <= zlen d ->
  bad_field_at c e (py_slice d q (q + 240)) 0 n -> bad_field_at c e d q n.
Proof.
  intros ST Hq L (f & v & F & E & A & I & S). exists f, v. repeat (split; [assumption|]).
  apply (stored_of_slice e d q (q + 240)); try lia; [|exact S]. specialize (ST f F). unfold field_pos. lia.
Qed.

Fixpoint number_from {A} (k : Z) (l : list A) : list (Z * A) :=
  match l with [] => [] | x :: l => (k, x) :: number_from (k + 1) l end.
Lemma number_from_combine {A} (l : list A) : forall n, combine (map Z.of_nat (seq n (length l))) l = number_from (Z.of_nat n) l.
Proof.
  induction l as [|x l IH]; intros n; [reflexivity|]. cbn [length seq map combine number_from]. f_equal.
  rewrite IH. f_equal. lia.
Qed.
Lemma numbered_from {A} (l : list A) : numbered l = number_from 0 l.
Proof. unfold numbered. exact (number_from_combine l 0). Qed.

Definition extended (b : builders) (k : Z) (ts : list tinfo) : builders :=
  mk_builders (b_lengths b ++ number_from k (map t_count ts)) (b_offsets b ++ number_from k (map t_pos ts))
    (b_lines b ++ map (fun p => (snd p, fst p)) (number_from k (map (fun t => (t_inline t, t_xline t)) ts)))
    (b_cdps b ++ map (fun p => (snd p, fst p)) (number_from k (map t_cdp ts))).
Lemma extended_nil b k : extended b k [] = b.
Proof. destruct b. unfold extended. cbn. now rewrite !app_nil_r. Qed.

Lemma on_lift_ok {A B} (a : A) (k : A -> wio B) w : wbind (on_file (lift (Ok a))) k w = k a w.
Proof. unfold wbind, on_file, lift. now destruct w. Qed.
Lemma on_lift_err {A B} x (k : A -> wio B) w : wbind (on_file (lift (Err x))) k w = (Err x, w).
Proof. unfold wbind, on_file, lift. now destruct w. Qed.
Lemma report_ok {B} n m (k : Datatypes.unit -> wio B) w : m <> 0 -> wbind (report n m) k w = k tt (mk_world (w_file w) (w_log w ++ [(n, m)])).
Proof. intros H. unfold wbind, report. destruct (m =? 0) eqn:E; [lia|reflexivity]. Qed.

Definition marks (d : list Z) (ts : list tinfo) (q : Z) : list (Z * Z) :=
  map (fun p => (3 * p, 4 * zlen d)) (map t_pos ts ++ [q]).

Section Scan.
Variables (c : fmt) (e : endian) (bps : Z) (d : list Z) (p : packer).
Hypothesis T : trace_format c.
Hypothesis HB : all_bytes d.
Hypothesis Hbps : 0 <= bps.
Hypothesis HP : forall buf, all_bytes buf -> zlen buf = 240 ->
    (exists h, pk_unpack p buf = Ok h /\ forall n, In n catalog_names -> exists v, hdr_get h n = Ok v /\ field_at c e buf 0 n v) \/
    (pk_unpack p buf = Err ValueError /\ exists n, In n catalog_names /\ bad_field_at c e buf 0 n).

Lemma catalog_loop_spec fuel : d <> [] -> forall k pos b x log, 0 <= pos -> zlen d < pos + 240 * Z.of_nat fuel -> (1 <= fuel)%nat ->
  exists ts q x', scan c e bps d pos ts q /\ pos <= q /\
    ((zlen d < q + 240 /\ catalog_loop fuel p bps (zlen d) k pos b (mk_world (mk_file d x) log) =
        (Ok (extended b k ts), mk_world (mk_file d x') (log ++ marks d ts q))) \/
     (q + 240 <= zlen d /\ (exists n, In n catalog_names /\ bad_field_at c e d q n) /\
        catalog_loop fuel p bps (zlen d) k pos b (mk_world (mk_file d x) log) =
        (Err ValueError, mk_world (mk_file d x') (log ++ marks d ts q)))).
Proof.
  intros ND. assert (DL : 0 < zlen d) by (destruct d; [congruence|rewrite zlen_cons; pose proof (zlen_nonneg l); lia]).
  destruct T as ((C & TF & ST & OR & LEN & MK) & _). 
  assert (NN : forall f v, is_field c f -> fd_name f = "num_samples" -> accepts (fd_type f) v -> 0 <= v) by apply T.
  induction fuel as [|fuel IH]; intros k pos b x log Hp HF HN; [lia|].
  cbn [catalog_loop]. rewrite report_ok by lia. cbn [w_file w_log].
  erewrite wbind_ok by (apply on_file_ok, seek_ok; exact Hp). cbn [f_data].
  erewrite wbind_ok by (apply on_file_ok; reflexivity). cbn [f_data f_pos].
  set (buf := py_slice d pos (pos + TRACE_HEADER_NUM_BYTES)).
  assert (LB : zlen buf = Z.max 0 (Z.min (pos + 240) (zlen d) - pos)).
  { subst buf. unfold TRACE_HEADER_NUM_BYTES. rewrite zlen_py_slice by lia. reflexivity. }
  destruct (zlen buf <? TRACE_HEADER_NUM_BYTES) eqn:E; unfold TRACE_HEADER_NUM_BYTES in E.
  - exists [], pos, (pos + zlen buf). split; [constructor|]. split; [lia|]. left. split; [lia|]. rewrite extended_nil. reflexivity.
  - assert (L240 : pos + 240 <= zlen d) by lia.
    assert (BB : all_bytes buf) by now apply all_bytes_slice.
    destruct (HP buf BB ltac:(lia)) as [(h & U & G)|(U & n & N & BAD)]; rewrite U.
    + rewrite on_lift_ok.
      destruct (G "num_samples") as (ns & Gn & An); [cbn; tauto|]. destruct (G "inline_number") as (il & Gi & Ai); [cbn; tauto|].
      destruct (G "crossline_number") as (xl & Gx & Ax); [cbn; tauto|]. destruct (G "ensemble_num") as (en & Ge & Ae); [cbn; tauto|].
      destruct (G "file_sequence_num") as (fs & _ & Af); [cbn; tauto|].
      rewrite Gn, Gi, Gx, Ge, !on_lift_ok. clear Gn Gi Gx Ge G U.
      apply (field_of_slice c e d pos) in An; [|assumption..]. apply (field_of_slice c e d pos) in Ai; [|assumption..].
      apply (field_of_slice c e d pos) in Ax; [|assumption..]. apply (field_of_slice c e d pos) in Ae; [|assumption..].
      apply (field_of_slice c e d pos) in Af; [|assumption..].
      assert (0 <= ns). { destruct An as (f & F & E' & A & _). exact (NN f ns F E' A). }
      set (pos' := pos + TRACE_HEADER_NUM_BYTES + ns * bps). unfold TRACE_HEADER_NUM_BYTES in pos'.
      set (b' := mk_builders _ _ _ _).
      destruct (IH (k + 1) pos' b' (pos + zlen buf) (log ++ [(3 * pos, 4 * zlen d)])) as (ts & q & x' & SC & PQ & R); [nia|nia|nia|].
      set (t := mk_tinfo pos ns il xl en).
      assert (EB : extended b' (k + 1) ts = extended b k (t :: ts)).
      { subst b' t. unfold extended. cbn [map number_from b_lengths b_offsets b_lines b_cdps t_pos t_count t_inline t_xline t_cdp fst snd].
        rewrite <- !app_assoc. reflexivity. }
      assert (EM : (log ++ [(3 * pos, 4 * zlen d)]) ++ marks d ts q = log ++ marks d (t :: ts) q).
      { rewrite <- app_assoc. reflexivity. }
      rewrite EB, EM in R.
      exists (t :: ts), q, x'. split.
      { apply (scan_trace c e bps d t ts q fs); cbn [t t_pos t_count t_inline t_xline t_cdp]; try assumption.
        replace (pos + 240 + bps * ns) with pos' by (subst pos'; lia). exact SC. }
      split; [nia|]. exact R.
    + rewrite on_lift_err. exists [], pos, (pos + zlen buf). split; [constructor|]. split; [lia|]. right. split; [lia|].
      split; [|reflexivity]. exists n. split; [exact N|]. apply (bad_of_slice c e d pos n ST Hp L240 BAD).
Qed.
End Scan.

Lemma number_from_fst {A} (l : list A) : forall k, map fst (number_from k l) = map (fun i => k + Z.of_nat i) (seq 0 (length l)).
Proof.
  induction l as [|x l IH]; intros k; [reflexivity|]. cbn [number_from map length seq fst]. f_equal; [lia|].
  rewrite IH, <- seq_shift, map_map. apply map_ext. intros a. lia.
Qed.
Lemma numbered_fst {A} (l : list A) : map fst (numbered l) = map Z.of_nat (seq 0 (length l)).
Proof. rewrite numbered_from, number_from_fst. apply map_ext. intros; lia. Qed.
Lemma number_from_snd {A} (l : list A) : forall k, map snd (number_from k l) = l.
Proof. induction l as [|x l IH]; intros k; [reflexivity|]. cbn. now rewrite IH. Qed.
Lemma numbered_snd {A} (l : list A) : map snd (numbered l) = l.
Proof. rewrite numbered_from. apply number_from_snd. Qed.
Lemma keyed_fst {K} (l : list K) : map fst (keyed l) = l.
Proof. unfold keyed. rewrite map_map. cbn. apply numbered_snd. Qed.
Lemma NoDup_upto n : NoDup (map Z.of_nat (seq 0 n)).
Proof. apply FinFun.Injective_map_NoDup; [intros a b H; lia|apply seq_NoDup]. Qed.
Lemma numbered_NoDup {A} (l : list A) : NoDup (map fst (numbered l)).
Proof. rewrite numbered_fst. apply NoDup_upto. Qed.
Lemma numbered_nonempty {A} (l : list A) : l <> [] -> numbered l <> [].
Proof. destruct l; [congruence|discriminate]. Qed.
Lemma In_numbered {A} (l : list A) k x : In (k, x) (numbered l) <-> 0 <= k < zlen l /\ nth_error l (Z.to_nat k) = Some x.
Proof.
  rewrite numbered_from. assert (G : forall l j, In (k, x) (number_from j l) <-> j <= k < j + zlen l /\ nth_error l (Z.to_nat (k - j)) = Some x).
  { clear l. induction l as [|y l IH]; intros j.
    - cbn. split; [tauto|]. unfold zlen; cbn. lia.
    - cbn [number_from In]. rewrite IH, zlen_cons. pose proof (zlen_nonneg l). split.
      + intros [H1|(H1 & H2)].
        * injection H1 as -> ->. split; [lia|]. now rewrite Z.sub_diag.
        * split; [lia|]. replace (Z.to_nat (k - j)) with (Datatypes.S (Z.to_nat (k - (j + 1)))) by lia. exact H2.
      + intros (H1 & H2). destruct (Z.eq_dec k j) as [->|N].
        * left. rewrite Z.sub_diag in H2. cbn in H2. congruence.
        * right. split; [lia|]. replace (Z.to_nat (k - j)) with (Datatypes.S (Z.to_nat (k - (j + 1)))) in H2 by lia. exact H2. }
  rewrite G, Z.sub_0_r, Z.add_0_l. reflexivity.
Qed.
Lemma In_keyed {K} (l : list K) x k : In (x, k) (keyed l) <-> 0 <= k < zlen l /\ nth_error l (Z.to_nat k) = Some x.
Proof.
  unfold keyed. rewrite in_map_iff. rewrite <- In_numbered. split.
  - intros ((a & b) & H & I). injection H as -> ->. exact I.
  - intros H. exists (k, x). now split.
Qed.

Lemma create1_index items : items <> [] -> exists o, fst (create1 items) = Ok o /\ index1 o items.
Proof.
  intros NE. destruct (NoDup_dec Z.eq_dec (map fst items)) as [ND|ND].
  - destruct (create1_holds items NE ND) as (c & E & H & SS). exists (Some c). split; [exact E|]. now split.
  - exists None. split; [now apply create1_none|exact ND].
Qed.
Lemma pair_dec (a b : Z * Z) : {a = b} + {a <> b}.
Proof. decide equality; apply Z.eq_dec. Qed.
Lemma create2_index items : items <> [] -> exists o, fst (create2 items) = Ok o /\ index2 o items.
Proof.
  intros NE. destruct (NoDup_dec pair_dec (map fst items)) as [ND|ND].
  - destruct (create2_holds items NE ND) as (c & E & H & _). exists (Some c). split; [exact E|]. now split.
  - exists None. split; [now apply create2_none|exact ND].
Qed.

Definition finished : list (Z * Z) := [(3, 4); (15, 16); (9, 8); (21, 16); (1, 1)].

Lemma catalog_traces_spec bps c e pr d pos log : trace_format c -> all_bytes d -> 0 <= bps -> 0 <= pos -> pr <> NotCallable ->
  exists r x log', catalog_traces bps c e pr (mk_world (mk_file d pos) log) = (r, mk_world (mk_file d x) log') /\
    catalog_outcome c e bps d pos r /\
    forall cs, r = Ok cs -> exists ts q, scan c e bps d pos ts q /\ zlen d < q + 240 /\ ts <> [] /\
      log' = log ++ marks d ts q ++ finished /\ catalogs_of ts cs /\
      fst (create2 (keyed (map (fun t => (t_inline t, t_xline t)) ts))) = Ok (snd cs).
Proof.
  intros T HB Hb Hp NC. destruct (catalog_packer c e T) as (sub & p & SF & MP & HP).
  assert (ER : catalog_traces bps c e pr (mk_world (mk_file d pos) log) =
    catalog_traces_fuel (Datatypes.S (Datatypes.S (length d))) bps c e (mk_world (mk_file d pos) log)).
  { destruct pr; [reflexivity|reflexivity|congruence]. }
  rewrite ER. clear ER NC pr. unfold catalog_traces_fuel. rewrite SF, on_lift_ok, MP, on_lift_ok.
  erewrite wbind_ok by (apply on_file_ok, file_length_ok; exact Hp).
  erewrite wbind_ok by (apply on_file_ok; reflexivity). cbn [f_pos f_data].
  destruct d as [|d0 dr] eqn:ED.
  { eexists _, _, _. split; [|split; [now apply found_empty|discriminate]]. reflexivity. }
  rewrite <- ED in *. assert (NE : d <> []) by (rewrite ED; discriminate). clear ED.
  destruct (catalog_loop_spec c e bps d p T HB Hb HP (Datatypes.S (Datatypes.S (length d))) NE 0 pos (mk_builders [] [] [] []) pos log Hp)
    as (ts & q & x & SC & PQ & [(Q & L)|(Q & (n & N & BAD) & L)]); [unfold zlen; lia|lia| |].
  - erewrite wbind_ok by exact L. clear L. rewrite report_ok by lia. cbn [w_file w_log].
    unfold extended. cbn [b_lengths b_offsets b_lines b_cdps app]. rewrite <- !numbered_from.
    change (map (fun p : Z * Z => (snd p, fst p)) (numbered (map t_cdp ts))) with (keyed (map t_cdp ts)).
    change (map (fun p : Z * (Z * Z) => (snd p, fst p)) (numbered (map (fun t => (t_inline t, t_xline t)) ts))) with
      (keyed (map (fun t => (t_inline t, t_xline t)) ts)).
    destruct ts as [|t0 tr] eqn:ET.
    { change (fst (create1 (numbered (map t_pos [])))) with (@Err (option catalog1) RuntimeError). rewrite on_lift_err.
      eexists _, _, _. split; [reflexivity|]. split; [|discriminate]. apply found_none; [|exact NE]. now exists q. }
    rewrite <- ET in *. assert (NT : ts <> []) by (rewrite ET; discriminate). clear ET.
    assert (NM : forall {A} (f : tinfo -> A), map f ts <> []) by (intros A f; destruct ts; [congruence|discriminate]).
    destruct (create1_holds (numbered (map t_pos ts))) as (co & EO & HO); [apply numbered_nonempty, NM|apply numbered_NoDup|].
    destruct (create1_holds (numbered (map t_count ts))) as (cl & EL & HL); [apply numbered_nonempty, NM|apply numbered_NoDup|].
    destruct (create1_index (keyed (map t_cdp ts))) as (cc & EC & HC).
    { unfold keyed. intros H. apply map_eq_nil in H. now apply numbered_nonempty in H. }
    destruct (create2_index (keyed (map (fun t => (t_inline t, t_xline t)) ts))) as (cx & EX & HX).
    { unfold keyed. intros H. apply map_eq_nil in H. now apply numbered_nonempty in H. }
    rewrite EO, on_lift_ok, report_ok by lia. rewrite EL, on_lift_ok, report_ok by lia.
    rewrite EC, on_lift_ok, report_ok by lia. rewrite EX, on_lift_ok, report_ok by lia. cbn [w_file w_log].
    assert (CO : catalogs_of ts (Some co, Some cl, cc, cx)).
    { cbn. split; [split; [apply numbered_NoDup|exact HO]|]. split; [discriminate|].
      split; [split; [apply numbered_NoDup|exact HL]|]. split; [discriminate|]. now split. }
    eexists _, _, _. split; [reflexivity|]. split.
    + eapply found_traces; [exists q; split; [exact SC|exact Q]|exact NT|exact CO].
    + intros cs [= <-]. exists ts, q. repeat (split; [assumption|]). split; [|split; [exact CO|exact EX]].
      rewrite <- !app_assoc. reflexivity.
  - erewrite wbind_err by exact L. eexists _, _, _. split; [reflexivity|]. split; [|discriminate].
    apply found_unreadable. exists ts, q, n. now repeat (split; [assumption|]).
Qed.

(* the traces of a file are determined *)
Lemma scan_unique c e bps d p ts q ts' q' : class_ok c -> scan c e bps d p ts q -> scan c e bps d p ts' q' ->
  zlen d < q + 240 \/ (exists n, bad_field_at c e d q n /\ In n catalog_names) ->
  zlen d < q' + 240 \/ (exists n, bad_field_at c e d q' n /\ In n catalog_names) -> ts = ts' /\ q = q'.
Proof.
  intros C S. revert ts' q'. induction S as [p|t ts q s L F1 F2 F3 F4 F5 S IH]; intros ts' q' S' E E'.
  - inversion S' as [|t' ts2 q2 s' L' G1 G2 G3 G4 G5 S2]; subst; [auto|]. exfalso. destruct E as [E|(n & B & N)]; [lia|].
    destruct N as [<-|[<-|[<-|[<-|[<-|[]]]]]]; (eapply field_at_bad; [exact C| |exact B]); eassumption.
  - inversion S' as [|t' ts2 q2 s' L' G1 G2 G3 G4 G5 S2 EP]; subst.
    + exfalso. destruct E' as [E'|(n & B & N)]; [lia|].
      destruct N as [<-|[<-|[<-|[<-|[<-|[]]]]]]; (eapply field_at_bad; [exact C| |exact B]); eassumption.
    + rewrite EP in *. pose proof (field_at_unique _ _ _ _ _ _ _ C F2 G2). pose proof (field_at_unique _ _ _ _ _ _ _ C F3 G3).
      pose proof (field_at_unique _ _ _ _ _ _ _ C F4 G4). pose proof (field_at_unique _ _ _ _ _ _ _ C F5 G5).
      assert (t = t') as <- by (destruct t, t'; cbn in *; congruence).
      destruct (IH ts2 q' S2 E E') as (-> & ->). auto.
Qed.
