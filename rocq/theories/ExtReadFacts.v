(* Proofs about reading extended textual headers. *)
From Coq Require Import String ZArith List Bool Lia.
From Coq Require Import ZifyBool ZifyNat.
From Verif Require Import Py PyFacts Util UtilFacts FileIO Text TextIO Spec_Text TextFacts TextIOFacts.
Import ListNotations.
Open Scope Z_scope.

(* ------------------------------------------------------------------ *)
(* the end-text stanza                                                  *)

Lemma prefix_eqb_iff p s : prefix_eqb p s = true <-> exists b, s = p ++ b.
Proof.
  revert s. induction p as [|x p IH]; intros s; cbn [prefix_eqb]. { split; auto. intros _. now exists s. }
  destruct s as [|y s]. { split; [discriminate|]. intros (b & H). discriminate. }
  rewrite andb_true_iff, IH, Z.eqb_eq. split.
  - intros (-> & b & ->). now exists b.
  - intros (b & H). injection H as -> ->. split; eauto.
Qed.
Lemma contains_iff p s : contains p s = true <-> exists a b, s = a ++ p ++ b.
Proof.
  induction s as [|y s IH]; cbn [contains]; rewrite orb_true_iff, prefix_eqb_iff.
  - split. { intros [(b & H)|H]; [|discriminate]. now exists [], b. }
    intros (a & b & H). left. exists b. destruct a; [auto|discriminate].
  - rewrite IH. split.
    + intros [(b & H)|(a & b & ->)]. { now exists [], b. } now exists (y :: a), b.
    + intros ([|z a] & b & H). { left. eauto. } right. injection H as _ ->. eauto.
Qed.
Lemma stanza_iff page : zlen page = 40 -> exists b, has_end_text_stanza page = Ok b /\ (b = true <-> end_page page).
Proof.
  intros L. destruct page as [|l ls]; [discriminate|]. unfold has_end_text_stanza.
  replace (py_get (l :: ls) 0) with (Ok l).
  2: { symmetry. apply (py_get_ok (l :: ls) 0 []). lia. }
  cbn [bind]. eexists. split; [reflexivity|]. rewrite contains_iff. unfold end_page. split.
  - intros (a & b & H). exists l, ls, a, b. auto.
  - intros (l' & ls' & a & b & H & H'). injection H as -> ->. eauto.
Qed.

(* ------------------------------------------------------------------ *)
(* one page                                                             *)

Lemma dec1_err e b x : supported e -> dec1 e b = Err x -> x = UnicodeDecodeError.
Proof.
  intros [->| ->]; cbn [dec1]; unfold ascii_decode_byte, cp037_decode_byte.
  - destruct (b <? 128); congruence.
  - destruct (nth_error _ _); congruence.
Qed.
Lemma decode_err e b x : supported e -> decode e b = Err x -> x = UnicodeDecodeError.
Proof. intros S. rewrite decode_map by auto. intros H. apply map_res_err in H. destruct H as (a & y & c & _ & _ & H). eapply dec1_err; eauto. Qed.
Lemma decode_app e b c s t : supported e -> decode e b = Ok s -> decode e c = Ok t -> decode e (b ++ c) = Ok (s ++ t).
Proof. intros S. rewrite !decode_map by auto. apply map_res_app_ok. Qed.
Lemma decode_concat e cs ss : supported e -> map_res (decode e) cs = Ok ss -> decode e (concat cs) = Ok (concat ss).
Proof.
  intros S H. apply map_res_iff in H. induction H as [|c s cs ss H _ IH]; cbn [concat]. { now rewrite decode_map by auto. }
  now apply decode_app.
Qed.
Lemma decode_zlen e b s : supported e -> decode e b = Ok s -> zlen s = zlen b.
Proof. intros S. rewrite decode_map by auto. apply map_res_zlen. Qed.
Lemma map_res_app_err {A B} (f : A -> res B) l m x : map_res f l = Err x -> map_res f (l ++ m) = Err x.
Proof.
  revert x. induction l as [|a l IH]; intros x; cbn [map_res app]; [discriminate|]. destruct (f a) as [y|y]; cbn [bind]; auto.
  destruct (map_res f l) as [r|r]; cbn [bind]; [discriminate|]. intros H. injection H as ->. rewrite (IH x); auto.
Qed.
Lemma decode_concat_err e cs x : supported e -> map_res (decode e) cs = Err x -> decode e (concat cs) = Err UnicodeDecodeError.
Proof.
  intros S H. apply map_res_err in H. destruct H as (a & c & b & -> & F & Hc).
  assert (A : exists ra, map_res (decode e) a = Ok ra).
  { clear -F. induction F as [|y a (r & E) _ (ra & IH)]; cbn [map_res]; eauto. rewrite E, IH. cbn [bind]. eauto. }
  destruct A as (ra & Ha).
  rewrite (decode_err e c x S Hc) in Hc. rewrite concat_app. cbn [concat].
  pose proof (decode_concat e a ra S Ha) as Qa. rewrite !decode_map in * by auto.
  assert (Q : map_res (dec1 e) (c ++ concat b) = Err UnicodeDecodeError) by (now apply map_res_app_err).
  clear -Qa Q. revert Qa. generalize (concat ra). induction (concat a) as [|y l IH]; intros r H; cbn [app]; auto.
  cbn [map_res] in *. destruct (dec1 e y); cbn [bind] in *; [|discriminate]. destruct (map_res (dec1 e) l) eqn:E; [|discriminate].
  rewrite (IH _ eq_refl). reflexivity.
Qed.
Lemma concat_unique (n : Z) : forall (p q : list text), Forall (fun l => zlen l = n) p -> Forall (fun l => zlen l = n) q ->
  zlen p = zlen q -> concat p = concat q -> p = q.
Proof.
  induction p as [|a p IH]; intros [|b q] Fp Fq L C; auto.
  - unfold zlen in L. cbn [length] in L. lia.
  - unfold zlen in L. cbn [length] in L. lia.
  - inversion Fp; inversion Fq; subst. cbn [concat] in C. rewrite !zlen_cons in L.
    assert (a = b).
    { apply (f_equal (firstn (Z.to_nat (zlen a)))) in C. rewrite firstn_zlen_app, firstn_zlen_app in C by lia. auto. }
    subst b. f_equal. apply app_inv_head in C. apply IH; auto. lia.
Qed.
Lemma page_at_unique e d k p q : page_at e d k p -> page_at e d k q -> p = q.
Proof. intros (_ & Lp & Fp & Dp) (_ & Lq & Fq & Dq). rewrite Dp in Dq. injection Dq as Q. eapply concat_unique; eauto. congruence. Qed.

Lemma page_bytes_slice d k : 0 <= k -> py_slice d (3600 + 3200 * k) (3600 + 3200 * k + 3200) = page_bytes d k.
Proof. intros. unfold py_slice, page_bytes. f_equal. lia. Qed.
Lemma page_bytes_zlen d k : 0 <= k -> page_present d k -> zlen (page_bytes d k) = 3200.
Proof. unfold page_present, page_bytes. intros. rewrite zlen_firstn, zlen_skipn. lia. Qed.

Lemma read_page_cases e d k : supported e -> 0 <= k ->
  (~ page_present d k /\ exists q, read_textual_reel_header e (mk_file d (3600 + 3200 * k)) = (Err EOFError, mk_file d q)) \/
  (page_present d k /\ decode e (page_bytes d k) = Err UnicodeDecodeError /\
     exists q, read_textual_reel_header e (mk_file d (3600 + 3200 * k)) = (Err UnicodeDecodeError, mk_file d q)) \/
  (exists p, page_at e d k p /\
     read_textual_reel_header e (mk_file d (3600 + 3200 * k)) = (Ok p, mk_file d (3600 + 3200 * (k + 1)))).
Proof.
  intros S K. unfold read_textual_reel_header, ibind, read. cbn [f_data f_pos]. change TEXTUAL_HEADER_NUM_BYTES with 3200.
  rewrite page_bytes_slice by auto. destruct (Z_le_dec (3600 + 3200 * (k + 1)) (zlen d)) as [P|P].
  2: { left. split; auto. replace (zlen (page_bytes d k) <? 3200) with true.
       - unfold raise. eauto.
       - unfold page_bytes. rewrite zlen_firstn, zlen_skipn. lia. }
  right. pose proof (page_bytes_zlen d k K P) as L. rewrite L, Z.ltb_irrefl.
  destruct (batched_exact (page_bytes d k) 80 40 ltac:(lia) ltac:(lia) L) as (bs & E & Lb & Fb & C).
  unfold lift. change CARD_LENGTH with 80. rewrite E. cbn [bind]. destruct (map_res (decode e) bs) as [p|x] eqn:M.
  - right. exists p. split. 2: { f_equal. f_equal. lia. } split; auto. split; [|split].
    + rewrite (map_res_zlen _ _ _ M). auto.
    + apply map_res_iff in M. clear -S M Fb. induction M; constructor; inversion Fb; subst; auto. rewrite (decode_zlen e _ _ S H). auto.
    + rewrite <- C. now apply decode_concat.
  - left. split; auto. split. { rewrite <- C. eapply decode_concat_err; eauto. }
    apply map_res_err in M. destruct M as (a & c & b & -> & _ & Hc). rewrite (decode_err e c x S Hc). eauto.
Qed.
Lemma read_page_at e d k p : supported e -> 0 <= k -> page_at e d k p ->
  read_textual_reel_header e (mk_file d (3600 + 3200 * k)) = (Ok p, mk_file d (3600 + 3200 * (k + 1))).
Proof.
  intros S K H. destruct (read_page_cases e d k S K) as [(N & _)|[(_ & D & _)|(q & Hq & E)]].
  - exfalso. apply N. apply H.
  - destruct H as (_ & _ & _ & D'). rewrite D in D'. discriminate.
  - now rewrite (page_at_unique e d k p q H Hq).
Qed.

(* ------------------------------------------------------------------ *)
(* plain pages                                                          *)

Lemma nth_zlen {A} (l : list A) x dflt : nth (Z.to_nat (zlen l)) (l ++ [x]) dflt = x.
Proof. rewrite zlen_to_nat, app_nth2, Nat.sub_diag by lia. reflexivity. Qed.
Lemma nth_before {A} (l m : list A) k dflt : 0 <= k < zlen l -> nth (Z.to_nat k) (l ++ m) dflt = nth (Z.to_nat k) l dflt.
Proof. intros. apply app_nth1. unfold zlen in *. lia. Qed.
Lemma plain_snoc e d pages p : plain_pages e d (pages ++ [p]) <->
  plain_pages e d pages /\ page_at e d (zlen pages) p /\ ~ end_page p.
Proof.
  unfold plain_pages. rewrite zlen_app. change (zlen [p]) with 1. pose proof (zlen_nonneg pages). split.
  - intros Hp. split.
    + intros k Hk. specialize (Hp k ltac:(lia)). now rewrite nth_before in Hp by auto.
    + specialize (Hp (zlen pages) ltac:(lia)). now rewrite nth_zlen in Hp.
  - intros (Hp & Hq) k Hk. destruct (Z.eq_dec k (zlen pages)) as [->|N].
    + now rewrite nth_zlen.
    + rewrite nth_before by lia. apply Hp. lia.
Qed.
Lemma plain_nil e d : plain_pages e d [].
Proof. intros k Hk. cbn in Hk. lia. Qed.

(* ------------------------------------------------------------------ *)
(* counted                                                              *)

Fixpoint upto (k : Z) (n : nat) : list Z := match n with O => [] | Datatypes.S n => k :: upto (k + 1) n end.
Lemma upto_length k n : length (upto k n) = n.
Proof. revert k. induction n; intros; cbn; auto. Qed.
Lemma upto_nth m : forall k j, (j < m)%nat -> nth j (upto k m) 0 = k + Z.of_nat j.
Proof. induction m; intros k j Hj; [lia|]. destruct j; cbn [upto nth]; [lia|]. rewrite IHm by lia. lia. Qed.
Lemma range_len_unit n : 0 <= n -> range_len (mk_range 0 n 1) = n.
Proof. intros. unfold range_len. cbn [r_start r_stop r_step]. change (0 <? 1) with true. destruct (0 <? n) eqn:E; rewrite ?Z.div_1_r; lia. Qed.
Lemma upto_range n : 0 <= n -> range_list (mk_range 0 n 1) = upto 0 (Z.to_nat n).
Proof.
  intros H. pose proof (range_list_length (mk_range 0 n 1)) as L. rewrite range_len_unit in L by auto.
  apply nth_ext with (d := 0) (d' := 0).
  - rewrite upto_length. unfold zlen in L. lia.
  - intros i Hi. pose proof (range_list_nth (mk_range 0 n 1) (Z.of_nat i) 0) as Q. rewrite Nat2Z.id in Q.
    rewrite Q by (rewrite range_len_unit by auto; unfold zlen in L; lia). rewrite upto_nth by (unfold zlen in L; lia). cbn [r_start r_step]. lia.
Qed.

Lemma counted_prefix e d n pages : supported e -> plain_pages e d pages -> zlen pages <= n ->
  counted_loop (upto 0 (Z.to_nat n)) n e [] (mk_file d 3600) =
  counted_loop (upto (zlen pages) (Z.to_nat (n - zlen pages))) n e pages (mk_file d (3600 + 3200 * zlen pages)).
Proof.
  intros S. induction pages as [|p pages IH] using rev_ind; intros P L.
  - change (zlen (@nil (list text))) with 0. now rewrite Z.sub_0_r.
  - apply plain_snoc in P. destruct P as (P & Hp & N). rewrite zlen_app in *. change (zlen [p]) with 1 in *.
    rewrite IH by (auto; lia). replace (Z.to_nat (n - zlen pages)) with (Datatypes.S (Z.to_nat (n - (zlen pages + 1)))) by lia.
    cbn [upto counted_loop]. unfold ibind at 1. rewrite (read_page_at e d _ p) by (auto; apply zlen_nonneg).
    destruct (stanza_iff p) as (b & E & B). { apply Hp. } unfold ibind, lift. rewrite E.
    destruct b. { exfalso. apply N, B. reflexivity. } reflexivity.
Qed.

Lemma rev_case {A} (l : list A) : l = [] \/ exists m x, l = m ++ [x].
Proof. destruct l as [|x l] using rev_ind; eauto. Qed.
Lemma counted_complete e d n r : supported e -> 0 <= n -> counted_outcome e d n r ->
  exists q, counted_loop (upto 0 (Z.to_nat n)) n e [] (mk_file d 3600) = (r, mk_file d q) /\
    (forall pages, r = Ok pages -> q = 3600 + 3200 * n).
Proof.
  intros S Hn H. destruct H as [pages L A B|pages P L N|pages p P L A E|pages P L A D].
  - destruct (rev_case pages) as [->|(ps & p & ->)].
    + cbn in L. subst n. cbn. unfold ret. eexists. split; eauto.
    + rewrite zlen_app in L. change (zlen [p]) with 1 in L. rewrite (counted_prefix e d n ps); auto; try lia.
      2: { intros k Hk. rewrite <- (nth_before ps [p]) by auto. split; [apply A|apply B]; lia. }
      replace (Z.to_nat (n - zlen ps)) with 1%nat by lia. cbn [upto counted_loop]. unfold ibind at 1.
      specialize (A (zlen ps) ltac:(pose proof (zlen_nonneg ps); lia)). rewrite nth_zlen in A.
      rewrite (read_page_at e d _ p) by (auto; apply zlen_nonneg).
      destruct (stanza_iff p) as (b & E & _). { apply A. } unfold ibind, lift. rewrite E.
      replace (zlen ps =? n - 1) with true by lia. rewrite andb_false_r. unfold ret. eexists. split; eauto. intros. lia.
  - rewrite (counted_prefix e d n pages) by (auto; lia). replace (Z.to_nat (n - zlen pages)) with (Datatypes.S (Z.to_nat (n - zlen pages - 1))) by lia.
    cbn [upto counted_loop]. unfold ibind at 1. destruct (read_page_cases e d (zlen pages) S (zlen_nonneg _)) as [(_ & q & ->)|[(Q & _)|(q & Q & _)]].
    + exists q. split; auto. discriminate.
    + contradiction.
    + exfalso. apply N, Q.
  - rewrite (counted_prefix e d n pages) by (auto; lia). replace (Z.to_nat (n - zlen pages)) with (Datatypes.S (Z.to_nat (n - zlen pages - 1))) by lia.
    cbn [upto counted_loop]. unfold ibind at 1. rewrite (read_page_at e d _ p) by (auto; apply zlen_nonneg).
    destruct (stanza_iff p) as (b & Es & Bs). { apply A. } unfold ibind, lift. rewrite Es. apply Bs in E. subst b.
    replace (zlen pages =? n - 1) with false by lia. cbn. unfold raise. eexists. split; eauto. discriminate.
  - rewrite (counted_prefix e d n pages) by (auto; lia). replace (Z.to_nat (n - zlen pages)) with (Datatypes.S (Z.to_nat (n - zlen pages - 1))) by lia.
    cbn [upto counted_loop]. unfold ibind at 1. destruct (read_page_cases e d (zlen pages) S (zlen_nonneg _)) as [(Q & _)|[(_ & _ & q & ->)|(q & Q & _)]].
    + contradiction.
    + exists q. split; auto. discriminate.
    + destruct Q as (_ & _ & _ & Q). rewrite D in Q. discriminate.
Qed.
Lemma counted_total_from e d n m : supported e -> forall pages, plain_pages e d pages -> n = zlen pages + Z.of_nat m ->
  exists r, counted_outcome e d n r.
Proof.
  intros S. induction m as [|m IH]; intros pages P L.
  - exists (Ok pages). replace n with (zlen pages) by lia. constructor; auto; intros k Hk; apply P; lia.
  - destruct (read_page_cases e d (zlen pages) S (zlen_nonneg _)) as [(N & _)|[(A & D & _)|(p & Hp & _)]].
    + exists (Err EOFError). apply counted_short with pages; auto. lia.
    + exists (Err UnicodeDecodeError). apply counted_undecodable with pages; auto. lia.
    + destruct (stanza_iff p) as (b & _ & B). { apply Hp. } destruct b.
      * destruct (Z.eq_dec (zlen pages) (n - 1)) as [Q|Q].
        -- exists (Ok (pages ++ [p])). constructor. { rewrite zlen_app. cbn. lia. }
           ++ intros k Hk. destruct (Z.eq_dec k (zlen pages)) as [->|Nk]. { now rewrite nth_zlen. } rewrite nth_before by lia. apply P. lia.
           ++ intros k Hk. rewrite nth_before by lia. apply P. lia.
        -- exists (Err ValueError). apply counted_early with pages p; auto. { lia. } now apply B.
      * apply (IH (pages ++ [p])). { apply plain_snoc. split; auto. split; auto. intros Q. apply B in Q. discriminate. }
        rewrite zlen_app. cbn. lia.
Qed.
Lemma counted_total e d n : supported e -> 0 <= n -> exists r, counted_outcome e d n r.
Proof. intros S H. apply (counted_total_from e d n (Z.to_nat n) S []). { apply plain_nil. } cbn. lia. Qed.

Lemma read_counted_spec e n f : supported e -> 0 <= n ->
  exists r q, read_extended_textual_headers n e f = (r, mk_file (f_data f) q) /\
    (forall r', counted_outcome e (f_data f) n r' <-> r' = r) /\
    (forall pages, r = Ok pages -> q = 3600 + 3200 * n).
Proof.
  intros S H. destruct (counted_total e (f_data f) n S H) as (r & R). destruct (counted_complete e _ n r S H R) as (q & E & Q).
  exists r, q. split.
  - unfold read_extended_textual_headers, ibind, seek. change (REEL_HEADER_NUM_BYTES <? 0) with false. cbn match.
    replace (n <? 0) with false by lia. unfold read_extended_headers_counted. replace (n <? 0) with false by lia.
    rewrite upto_range by auto. exact E.
  - split; auto. intros r'. split; [|now intros ->]. intros R'. destruct (counted_complete e _ n r' S H R') as (q' & E' & _).
    rewrite E in E'. congruence.
Qed.

(* ------------------------------------------------------------------ *)
(* until the end                                                        *)

Lemma until_prefix e d pages m : supported e -> plain_pages e d pages ->
  until_end_loop (length pages + m) e [] (mk_file d 3600) = until_end_loop m e pages (mk_file d (3600 + 3200 * zlen pages)).
Proof.
  intros S. revert m. induction pages as [|p pages IH] using rev_ind; intros m P.
  - reflexivity.
  - apply plain_snoc in P. destruct P as (P & Hp & N). rewrite app_length. cbn [length].
    replace (length pages + 1 + m)%nat with (length pages + Datatypes.S m)%nat by lia. rewrite IH by auto.
    cbn [until_end_loop]. unfold ibind at 1. rewrite (read_page_at e d _ p) by (auto; apply zlen_nonneg).
    destruct (stanza_iff p) as (b & E & B). { apply Hp. } unfold ibind, lift. rewrite E.
    destruct b. { exfalso. apply N, B. reflexivity. } rewrite zlen_app. reflexivity.
Qed.
Lemma plain_bound e d pages : plain_pages e d pages -> (length pages <= length d)%nat.
Proof.
  intros P. destruct pages as [|p pages]; cbn [length]; [lia|]. 
  pose proof (P (zlen pages)) as Q. rewrite zlen_cons in Q. destruct Q as ((Q & _) & _). { pose proof (zlen_nonneg pages). lia. }
  unfold page_present, zlen in Q. lia.
Qed.
Lemma until_complete e d r : supported e -> until_end_outcome e d r ->
  exists q, until_end_loop (Datatypes.S (length d)) e [] (mk_file d 3600) = (r, mk_file d q) /\
    (forall pages, r = Ok pages -> q = 3600 + 3200 * zlen pages).
Proof.
  intros S H.
  assert (W : forall pages, plain_pages e d pages -> exists m, Datatypes.S (length d) = (length pages + Datatypes.S m)%nat).
  { intros pages P. pose proof (plain_bound e d pages P). exists (length d - length pages)%nat. lia. }
  destruct H as [pages p P A E|pages P N|pages P A D]; destruct (W pages P) as (m & ->); rewrite until_prefix by auto;
    cbn [until_end_loop]; unfold ibind at 1.
  - rewrite (read_page_at e d _ p) by (auto; apply zlen_nonneg).
    destruct (stanza_iff p) as (b & Es & Bs). { apply A. } unfold ibind, lift. rewrite Es. apply Bs in E. subst b.
    unfold ret. eexists. split; eauto. intros ps Q. injection Q as <-. rewrite zlen_app. reflexivity.
  - destruct (read_page_cases e d (zlen pages) S (zlen_nonneg _)) as [(_ & q & ->)|[(Q & _)|(q & Q & _)]].
    + exists q. split; auto. discriminate.
    + contradiction.
    + exfalso. apply N, Q.
  - destruct (read_page_cases e d (zlen pages) S (zlen_nonneg _)) as [(Q & _)|[(_ & _ & q & ->)|(q & Q & _)]].
    + contradiction.
    + exists q. split; auto. discriminate.
    + destruct Q as (_ & _ & _ & Q). rewrite D in Q. discriminate.
Qed.
Lemma until_total_from e d m : supported e -> forall pages, plain_pages e d pages -> (length d < length pages + m)%nat ->
  exists r, until_end_outcome e d r.
Proof.
  intros S. induction m as [|m IH]; intros pages P L. { pose proof (plain_bound e d pages P). lia. }
  destruct (read_page_cases e d (zlen pages) S (zlen_nonneg _)) as [(N & _)|[(A & D & _)|(p & Hp & _)]].
  - exists (Err EOFError). now apply until_short with pages.
  - exists (Err UnicodeDecodeError). now apply until_undecodable with pages.
  - destruct (stanza_iff p) as (b & _ & B). { apply Hp. } destruct b.
    + exists (Ok (pages ++ [p])). apply until_read; auto. now apply B.
    + apply (IH (pages ++ [p])). { apply plain_snoc. split; auto. split; auto. intros Q. apply B in Q. discriminate. }
      rewrite app_length. cbn. lia.
Qed.
Lemma until_total e d : supported e -> exists r, until_end_outcome e d r.
Proof. intros S. apply (until_total_from e d (Datatypes.S (length d)) S []). { apply plain_nil. } cbn. lia. Qed.

Lemma read_until_spec e n f : supported e -> n < 0 ->
  exists r q, read_extended_textual_headers n e f = (r, mk_file (f_data f) q) /\
    (forall r', until_end_outcome e (f_data f) r' <-> r' = r) /\
    (forall pages, r = Ok pages -> q = 3600 + 3200 * zlen pages).
Proof.
  intros S H. destruct (until_total e (f_data f) S) as (r & R). destruct (until_complete e _ r S R) as (q & E & Q).
  exists r, q. split.
  - unfold read_extended_textual_headers, ibind, seek. change (REEL_HEADER_NUM_BYTES <? 0) with false. cbn match.
    replace (n <? 0) with true by lia. exact E.
  - split; auto. intros r'. split; [|now intros ->]. intros R'. destruct (until_complete e _ r' S R') as (q' & E' & _).
    rewrite E in E'. congruence.
Qed.

(* ------------------------------------------------------------------ *)
(* write, then read                                                     *)

Lemma concat_nth_slice (cs : list (list Z)) n k pre post : Forall (fun c => zlen c = n) cs -> 0 <= k < zlen cs -> 0 <= n ->
  firstn (Z.to_nat n) (skipn (Z.to_nat (zlen pre + n * k)) (pre ++ concat cs ++ post)) = nth (Z.to_nat k) cs [].
Proof.
  intros F. revert k pre. induction F as [|c cs L F IH]; intros k pre K N. { cbn in K. lia. }
  rewrite zlen_cons in K. destruct (Z.eq_dec k 0) as [->|Nk].
  - rewrite Z.mul_0_r, Z.add_0_r, skipn_zlen_app by auto. cbn [concat nth Z.to_nat]. rewrite <- app_assoc. now rewrite firstn_zlen_app.
  - cbn [concat]. rewrite <- app_assoc, (app_assoc pre c). specialize (IH (k - 1) (pre ++ c) ltac:(lia) N). rewrite zlen_app, L in IH.
    replace (zlen pre + n * k) with (zlen pre + n + n * (k - 1)) by lia. rewrite IH.
    replace (Z.to_nat k) with (Datatypes.S (Z.to_nat (k - 1))) by lia. reflexivity.
Qed.
Lemma written_page_at e css pages pre post k : supported e -> Forall2 (encoded_page e) css pages -> zlen pre = 3600 ->
  Forall (page_ok e) pages -> 0 <= k < zlen pages ->
  page_at e (pre ++ concat (map (@concat Z) css) ++ post) k (nth (Z.to_nat k) pages []).
Proof.
  intros S F L P K.
  assert (F' : Forall (fun c => zlen c = 3200) (map (@concat Z) css)).
  { apply Forall_map. clear -F. induction F; constructor; auto. eapply encoded_zlen; eauto. }
  assert (Lc : zlen css = zlen pages) by (eapply Forall2_zlen; eauto).
  assert (E : encoded_page e (nth (Z.to_nat k) css []) (nth (Z.to_nat k) pages [])).
  { assert (Kn : (Z.to_nat k < length css)%nat) by (unfold zlen in *; lia). clear -F Kn. revert Kn. generalize (Z.to_nat k). intros n. revert n.
    induction F; intros [|n] K; cbn in *; auto; try lia. apply IHF. lia. }
  assert (Q : page_ok e (nth (Z.to_nat k) pages [])).
  { rewrite Forall_forall in P. apply P. apply nth_In. unfold zlen in *. lia. }
  split; [|split; [|split]].
  - unfold page_present. rewrite !zlen_app, (concat_zlen _ 3200), zlen_map, L, Lc by auto. pose proof (zlen_nonneg post). lia.
  - apply Q.
  - destruct Q as (_ & Q). eapply Forall_impl; [|exact Q]. cbn. tauto.
  - unfold page_bytes. rewrite <- L. rewrite (concat_nth_slice _ 3200) by (auto; try lia; rewrite zlen_map; lia).
    change (@nil Z) with (concat (@nil (list Z))). rewrite map_nth. apply decode_concat; auto. apply E.
Qed.

Lemma write_ext_data e pages f : supported e -> Forall (page_ok e) pages -> 
  exists css f', Forall2 (encoded_page e) css pages /\
    write_extended_textual_headers pages e f = (Ok tt, f') /\ f_pos f' = 3600 + 3200 * zlen pages /\
    (pages = [] -> f_data f' = f_data f) /\
    (pages <> [] -> f_data f' = padded_prefix (f_data f) 3600 ++ concat (map (@concat Z) css) ++ skipn (Z.to_nat (3600 + 3200 * zlen pages)) (f_data f)).
Proof.
  intros S P. destruct (write_ext_run e pages f S P) as (css & F & E). exists css.
  destruct F as [|cs p css pages H F].
  - exists (mk_file (f_data f) 3600). rewrite E. cbn [f_data f_pos]. split; [constructor|]. split; [reflexivity|]. split; [reflexivity|]. split; [auto|congruence].
  - pose proof (Forall2_zlen _ _ _ F) as L. pose proof (encoded_zlen _ _ _ H) as Lc.
    cbn [write_pages] in E. change TEXTUAL_HEADER_NUM_BYTES with 3200 in E. rewrite Lc, Z.eqb_refl in E. cbn [negb] in E.
    unfold ibind in E. rewrite write_run in E by (intros Q; rewrite Q, zlen_nil in Lc; lia). cbn [f_data f_pos] in E.
    rewrite app_assoc in E.
    assert (Lp : 3600 + zlen (concat cs) = zlen (padded_prefix (f_data f) 3600 ++ concat cs)) by (rewrite zlen_app, padded_prefix_len; lia).
    rewrite Lp in E at 2. rewrite (write_pages_run e css pages F) in E. rewrite E. eexists. split. { now constructor. } split; [reflexivity|]. cbn [f_data f_pos].
    rewrite <- Lp, Lc, zlen_cons, L. split; [lia|]. split; [congruence|]. intros _. cbn [map concat]. rewrite <- !app_assoc. do 3 f_equal.
    rewrite skipn_plus by (pose proof (zlen_nonneg pages); lia). f_equal. lia.
Qed.

Lemma ext_round_trip_counted e pages f : supported e -> Forall (page_ok e) pages -> Forall (fun p => ~ end_page p) (removelast pages) ->
  exists f', write_extended_textual_headers pages e f = (Ok tt, f') /\ f_pos f' = 3600 + 3200 * zlen pages /\
    forall q, read_extended_textual_headers (zlen pages) e (mk_file (f_data f') q) = (Ok pages, f').
Proof.
  intros S P N. destruct (write_ext_data e pages f S P) as (css & f' & F & E & Q & D0 & D1). exists f'. split; auto. split; auto.
  intros q. destruct (read_counted_spec e (zlen pages) (mk_file (f_data f') q) S (zlen_nonneg _)) as (r & q' & Er & U & Z).
  cbn [f_data] in *. assert (R : counted_outcome e (f_data f') (zlen pages) (Ok pages)).
  { constructor; auto.
    - intros k Hk. rewrite D1 by (intros ->; cbn in Hk; lia). apply written_page_at; auto. now apply padded_prefix_len.
    - intros k Hk. destruct (rev_case pages) as [->|(ps & p & ->)]. { cbn in Hk. lia. }
      rewrite removelast_last in N. rewrite zlen_app in Hk. change (zlen [p]) with 1 in Hk. rewrite nth_before by lia.
      rewrite Forall_forall in N. apply N. apply nth_In. unfold zlen in *. lia. }
  apply U in R. subst r. rewrite Er, (Z pages eq_refl). f_equal. destruct f'; cbn in *. now f_equal.
Qed.
Lemma ext_round_trip_until e pages p n f : supported e -> n < 0 -> Forall (page_ok e) (pages ++ [p]) -> Forall (fun p => ~ end_page p) pages ->
  end_page p ->
  exists f', write_extended_textual_headers (pages ++ [p]) e f = (Ok tt, f') /\ f_pos f' = 3600 + 3200 * (zlen pages + 1) /\
    forall q, read_extended_textual_headers n e (mk_file (f_data f') q) = (Ok (pages ++ [p]), f').
Proof.
  intros S Hn P N En. destruct (write_ext_data e (pages ++ [p]) f S P) as (css & f' & F & E & Q & D0 & D1). exists f'. split; auto.
  rewrite zlen_app in Q. change (zlen [p]) with 1 in Q. split; auto.
  intros q. destruct (read_until_spec e n (mk_file (f_data f') q) S Hn) as (r & q' & Er & U & Z).
  cbn [f_data] in *. 
  assert (A : forall k, 0 <= k < zlen pages + 1 -> page_at e (f_data f') k (nth (Z.to_nat k) (pages ++ [p]) [])).
  { intros k Hk. rewrite D1 by (destruct pages; discriminate). apply written_page_at; auto. { now apply padded_prefix_len. }
    rewrite zlen_app. cbn. lia. }
  assert (R : until_end_outcome e (f_data f') (Ok (pages ++ [p]))).
  { constructor; auto.
    - intros k Hk. split. { rewrite <- (nth_before pages [p]) by auto. apply A. lia. }
      rewrite Forall_forall in N. apply N. apply nth_In. unfold zlen in *. lia.
    - specialize (A (zlen pages)). rewrite nth_zlen in A. apply A. pose proof (zlen_nonneg pages). lia. }
  apply U in R. subst r. rewrite Er, (Z _ eq_refl). f_equal. rewrite zlen_app. change (zlen [p]) with 1. destruct f'; cbn in *. now f_equal.
Qed.

Lemma write_ext_wrote e pages f : supported e -> Forall (page_ok e) pages -> pages <> [] ->
  exists b f', write_extended_textual_headers pages e f = (Ok tt, f') /\ zlen b = 3200 * zlen pages /\
    wrote (mk_file (f_data f) 3600) b f'.
Proof.
  intros S P N. destruct (write_ext_data e pages f S P) as (css & f' & F & E & Q & _ & D). specialize (D N).
  set (b := concat (map (@concat Z) css)) in *.
  assert (Lb : zlen b = 3200 * zlen pages).
  { unfold b. rewrite (concat_zlen _ 3200). { rewrite zlen_map, (Forall2_zlen _ _ _ F). lia. }
    apply Forall_map. clear -F. induction F; constructor; auto. eapply encoded_zlen; eauto. }
  assert (Nb : b <> []). { intros Z0. rewrite Z0, zlen_nil in Lb. destruct pages; [congruence|]. rewrite zlen_cons in Lb. pose proof (zlen_nonneg pages). lia. }
  destruct (write_wrote b (mk_file (f_data f) 3600) Nb ltac:(cbn; lia)) as (f'' & E' & W). rewrite write_run in E' by auto. cbn [f_data f_pos] in E'.
  injection E' as <-. exists b, f'. split; auto. split; auto.
  replace f' with (mk_file (padded_prefix (f_data f) 3600 ++ b ++ skipn (Z.to_nat (3600 + zlen b)) (f_data f)) (3600 + zlen b)); auto.
  destruct f' as [d p]. cbn [f_data f_pos] in *. rewrite D, Q, Lb. reflexivity.
Qed.
