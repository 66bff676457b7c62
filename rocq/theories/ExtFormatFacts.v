(* Proofs about formatting extended textual headers. *)
From Coq Require Import String ZArith List Bool Lia.
From Coq Require Import ZifyBool ZifyNat.
From Verif Require Import Py PyFacts Util UtilFacts FileIO Text TextIO Spec_Text TextFacts TextIOFacts ExtReadFacts.
Import ListNotations.
Open Scope Z_scope.

(* ------------------------------------------------------------------ *)
(* splitlines                                                           *)

Lemma is_break_iff c : is_break c = true <-> In c breaks.
Proof. unfold is_break, breaks. cbn [In]. lia. Qed.
Lemma splitlines_loop_ok n : forall s line, (length s <= n)%nat -> no_break line -> text_lines (line ++ s) (splitlines_loop line s).
Proof.
  induction n as [|n IH]; intros s line L N.
  - destruct s; [|cbn in L; lia]. cbn. rewrite app_nil_r. destruct line; constructor; auto. discriminate.
  - destruct s as [|c t]; cbn [splitlines_loop].
    { rewrite app_nil_r. destruct line; constructor; auto. discriminate. }
    cbn [length] in L. destruct (is_break c) eqn:B.
    + apply is_break_iff in B. destruct t as [|d t].
      * apply lines_break; auto. { intros (_ & r & H). discriminate. } constructor.
      * destruct ((c =? 13) && (d =? 10)) eqn:Q.
        -- apply andb_prop in Q. destruct Q as (Q1 & Q2). apply Z.eqb_eq in Q1, Q2. subst c d. apply (lines_crlf line t); auto.
           apply (IH t []); [cbn in L; lia|intros ? []].
        -- apply (lines_break line c (d :: t)); auto.
           { intros (-> & r & H). injection H as -> ->. cbn in Q. discriminate. }
           apply (IH (d :: t) []); [cbn in *; lia|intros ? []].
    + replace (line ++ c :: t) with ((line ++ [c]) ++ t) by (now rewrite <- app_assoc). apply IH; [lia|].
      intros x H. apply in_app_iff in H. destruct H as [H|[<-|[]]]; auto. rewrite <- is_break_iff. congruence.
Qed.
Lemma splitlines_ok s : text_lines s (splitlines s).
Proof. apply (splitlines_loop_ok (length s) s []); auto. intros ? []. Qed.

(* the lines of a text are unique *)
Lemma app_break_unique l m c d r q : no_break l -> no_break m -> In c breaks -> In d breaks -> l ++ c :: r = m ++ d :: q ->
  l = m /\ c = d /\ r = q.
Proof.
  revert m. induction l as [|x l IH]; intros [|y m] Nl Nm C D E; cbn [app] in E; injection E as -> E.
  - auto.
  - exfalso. apply (Nm y); auto. now left.
  - exfalso. apply (Nl d); auto. now left.
  - destruct (IH m) as (-> & -> & ->); auto; intros z Hz; [apply Nl|apply Nm]; now right.
Qed.
Lemma no_break_no_split l m c r : no_break l -> In c breaks -> l <> m ++ c :: r.
Proof. intros N C ->. apply (N c); auto. apply in_app_iff. right. now left. Qed.
Lemma text_lines_unique' s ls : text_lines s ls -> forall s' ms, text_lines s' ms -> s = s' -> ls = ms.
Proof.
  assert (B13 : In 13 breaks) by (cbn; tauto).
  induction 1 as [|l N0 N|l rest ls N H IH|l c rest ls N C X H IH]; intros s' ms M Q;
    destruct M as [|l' N0' N'|l' rest' ls' N' H'|l' c' rest' ls' N' C' X' H']; cbn [app] in Q;
    try (now auto); try (subst; congruence); try (now (destruct l || destruct l')).
  - exfalso. eapply no_break_no_split; [exact N|exact B13|exact Q].
  - exfalso. eapply no_break_no_split; [exact N|exact C'|exact Q].
  - exfalso. eapply no_break_no_split; [exact N'|exact B13|symmetry; exact Q].
  - apply app_break_unique in Q; auto. destruct Q as (-> & _ & Q). injection Q as ->. f_equal. eauto.
  - apply app_break_unique in Q; auto. destruct Q as (-> & <- & Q). exfalso. apply X'. split; auto. exists rest. auto.
  - exfalso. eapply no_break_no_split; [exact N'|exact C|symmetry; exact Q].
  - apply app_break_unique in Q; auto. destruct Q as (-> & -> & Q). exfalso. apply X. split; auto. eauto.
  - apply app_break_unique in Q; auto. destruct Q as (-> & -> & ->). f_equal. eauto.
Qed.
Lemma text_lines_unique s ls ms : text_lines s ls -> text_lines s ms -> ls = ms.
Proof. intros H M. eapply text_lines_unique'; eauto. Qed.

(* ------------------------------------------------------------------ *)
(* pieces                                                               *)

Lemma range_list_step a n w : 0 < w -> a < n -> range_list (mk_range a n w) = a :: range_list (mk_range (a + w) n w).
Proof.
  intros W H. unfold range_list. cbn [r_start r_step].
  assert (E : Z.to_nat (range_len (mk_range a n w)) = Datatypes.S (Z.to_nat (range_len (mk_range (a + w) n w)))).
  { unfold range_len. cbn [r_start r_stop r_step]. replace (0 <? w) with true by lia. replace (a <? n) with true by lia.
    destruct (a + w <? n) eqn:Q.
    - replace (n - 1 - a) with (n - 1 - (a + w) + 1 * w) by lia. rewrite Z.div_add by lia.
      assert (0 <= (n - 1 - (a + w)) / w) by (apply Z.div_pos; lia). lia.
    - rewrite Z.div_small by lia. lia. }
  rewrite E. cbn [seq map]. f_equal. { lia. } rewrite <- seq_shift, map_map. apply map_ext. intros i. lia.
Qed.
Lemma range_list_done a n w : 0 < w -> n <= a -> range_list (mk_range a n w) = [].
Proof.
  intros W H. unfold range_list, range_len. cbn [r_start r_stop r_step]. replace (0 <? w) with true by lia. replace (a <? n) with false by lia. reflexivity.
Qed.
Lemma split_from (l : text) w : 0 < w -> forall m a, 0 <= a -> zlen l - a <= Z.of_nat m ->
  pieces w (skipn (Z.to_nat a) l) (map (fun i => py_slice l i (i + w)) (range_list (mk_range a (zlen l) w))).
Proof.
  intros W. induction m as [|m IH]; intros a A L.
  - rewrite range_list_done by lia. rewrite skipn_all2 by (unfold zlen in L; lia). constructor.
  - destruct (Z_lt_dec a (zlen l)) as [H|H].
    2: { rewrite range_list_done by lia. rewrite skipn_all2 by (unfold zlen in H; lia). constructor. }
    rewrite range_list_step by auto. cbn [map]. set (p := py_slice l a (a + w)).
    assert (S : skipn (Z.to_nat a) l = p ++ skipn (Z.to_nat (a + w)) l).
    { unfold p, py_slice. rewrite <- (firstn_skipn (Z.to_nat (a + w - a)) (skipn (Z.to_nat a) l)) at 1. f_equal. rewrite skipn_skipn'. f_equal. lia. }
    assert (Lp : zlen p = Z.min w (zlen l - a)) by (unfold p; rewrite zlen_py_slice by lia; lia).
    specialize (IH (a + w) ltac:(lia) ltac:(lia)). destruct (Z_lt_dec (a + w) (zlen l)) as [Q|Q].
    + rewrite S. apply pieces_cons; auto. { lia. } intros E. apply (f_equal zlen) in E. rewrite zlen_skipn in E. cbn in E. lia.
    + rewrite range_list_done by lia. rewrite S, skipn_all2 by (unfold zlen in Q; lia). rewrite app_nil_r. cbn [map]. constructor. lia.
Qed.
Lemma split_line_ok l w : 0 < w -> pieces w l (split_line l w).
Proof. intros W. apply (split_from l w W (length l) 0); unfold zlen; lia. Qed.
Lemma pieces_concat w s ps : pieces w s ps -> concat ps = s.
Proof. induction 1; cbn; auto. { apply app_nil_r. } now f_equal. Qed.
Lemma pieces_len w s ps : pieces w s ps -> Forall (fun p => zlen p <= w) ps.
Proof. induction 1; constructor; auto; lia. Qed.

(* ------------------------------------------------------------------ *)
(* pages                                                                *)

Lemma pad_line_ok s : zlen s <= 78 -> header_line s (pad_and_terminate_header_line s 78).
Proof.
  intros L. exists (fit 78 s). split. { apply fit_fitted. lia. } unfold pad_and_terminate_header_line, fit, HEADER_NEWLINE. f_equal.
  unfold py_slice. cbn [skipn Z.to_nat]. rewrite firstn_all2; auto. unfold zlen in L. lia.
Qed.
Lemma header_line_unique s r r' : header_line s r -> header_line s r' -> r = r'.
Proof. intros (b & F & ->) (b' & F' & ->). f_equal. eapply fitted_unique; eauto. Qed.
Lemma header_line_zlen s r : header_line s r -> zlen r = 80.
Proof. intros (b & (L & _) & ->). rewrite zlen_app. cbn. lia. Qed.

Lemma format_pages_run s e : supported e -> exists pages k content,
  format_extended_pages s e = Ok pages /\ 0 <= k < 40 /\
  content = concat (map (fun l => split_line l 78) (splitlines s)) /\
  concat pages = map (fun p => pad_and_terminate_header_line p 78) content ++ zrepeat (pad_and_terminate_header_line [] 78) k /\
  Forall (fun p => zlen p = 40) pages.
Proof.
  intros S. unfold format_extended_pages. replace (is_supported_encoding e) with true by (destruct S as [->| ->]; reflexivity). cbn [negb].
  change (CARD_LENGTH - zlen HEADER_NEWLINE) with 78.
  match goal with |- context [batched ?x 40 (Some ?p)] => destruct (batched_padded x 40 p ltac:(lia)) as (pages & k & E & K & C & F); set (lines := x) in * end.
  exists pages, k. eexists. split; [exact E|]. split; auto. split; [reflexivity|]. split; auto. rewrite C. f_equal.
  unfold lines. rewrite concat_map, map_map. reflexivity.
Qed.

Lemma page_lines_run s : page_lines s (concat (map (fun l => split_line l 78) (splitlines s))).
Proof.
  exists (splitlines s), (map (fun l => split_line l 78) (splitlines s)). split. { apply splitlines_ok. } split; auto.
  induction (splitlines s); constructor; auto. apply split_line_ok. lia.
Qed.
Lemma page_lines_short s content : page_lines s content -> Forall (fun p => zlen p <= 78) content.
Proof.
  intros (ls & pss & _ & F & ->). induction F as [|l ps ls pss H _ IH]; cbn; auto. apply Forall_app. split; auto. eapply pieces_len; eauto.
Qed.
Lemma Forall2_repeat {A B} (R : A -> B -> Prop) x y n : R x y -> Forall2 R (repeat x n) (repeat y n).
Proof. intros. induction n; constructor; auto. Qed.

Lemma format_pages s e : supported e -> exists pages content k,
  format_extended_textual_header s e false = Ok pages /\ page_lines s content /\ 0 <= k < 40 /\
  Forall (fun p => zlen p = 40) pages /\ Forall2 header_line (content ++ zrepeat [] k) (concat pages).
Proof.
  intros S. destruct (format_pages_run s e S) as (pages & k & content & E & K & C & L & F).
  assert (P : page_lines s content) by (rewrite C; apply page_lines_run).
  exists pages, content, k. split. { unfold format_extended_textual_header. rewrite E. reflexivity. }
  split; auto. split; auto. split; auto. rewrite L. apply Forall2_app.
  - pose proof (page_lines_short _ _ P) as Q. clear -Q. induction Q; constructor; auto. now apply pad_line_ok.
  - apply Forall2_repeat. apply pad_line_ok. cbn. lia.
Qed.

Definition stop_page : list text :=
  pad_and_terminate_header_line END_TEXT_STANZA 78 :: zrepeat (pad_and_terminate_header_line [] 78) 39.
Lemma stop_page_ok e : supported e -> exists l ls, stop_page = l :: ls /\ header_line (lit "((SEG: EndText))") l /\
  Forall2 header_line (zrepeat [] 39) ls /\ page_ok e stop_page /\ end_page stop_page.
Proof.
  intros S. eexists _, _. split; [reflexivity|]. split. { apply pad_line_ok. vm_compute. discriminate. }
  split. { apply Forall2_repeat. apply pad_line_ok. cbn. lia. }
  split.
  - split; [reflexivity|]. apply Forall_forall. intros l H.
    assert (Q : forallb (fun l => (zlen l =? 80) && forallb (fun c => (0 <=? c) && (c <? 128)) l) stop_page = true) by (vm_compute; reflexivity).
    rewrite forallb_forall in Q. specialize (Q l H). apply andb_prop in Q. destruct Q as (Q1 & Q2). split; [lia|].
    apply Forall_forall. intros c Hc. rewrite forallb_forall in Q2. specialize (Q2 c Hc). destruct S as [->| ->]; cbn; lia.
  - eexists _, _, [], (zrepeat SPACE (78 - zlen END_TEXT_STANZA) ++ HEADER_NEWLINE). split; [reflexivity|]. cbn [app].
    unfold pad_and_terminate_header_line, ljust. now rewrite <- app_assoc.
Qed.
Lemma format_stop s e pages : supported e -> format_extended_textual_header s e false = Ok pages ->
  format_extended_textual_header s e true = Ok (pages ++ [stop_page]).
Proof.
  intros S. unfold format_extended_textual_header. destruct (format_extended_pages s e) as [ps|]; cbn [bind]; [|discriminate].
  intros H. injection H as ->. replace (format_extended_pages END_TEXT_STANZA e) with (Ok [stop_page]). { reflexivity. }
  destruct S as [->| ->]; vm_compute; reflexivity.
Qed.
Lemma format_ext_unsupported s e stop : ~ supported e -> format_extended_textual_header s e stop = Err UnsupportedEncodingError.
Proof. intros N. destruct e; [exfalso; apply N; now left|exfalso; apply N; now right|reflexivity]. Qed.

(* a text of encodable characters gives pages that can be written *)
Lemma fitted_encodable e s r w : supported e -> encodable e s -> fitted w s r -> encodable e r.
Proof.
  intros S Y (L & F). apply Forall_forall. intros c H. apply (In_nth _ _ 0) in H. destruct H as (n & Hn & <-).
  specialize (F (Z.of_nat n)). rewrite Nat2Z.id in F. rewrite F by (unfold zlen in *; lia).
  destruct (Z.of_nat n <? zlen s) eqn:Q; [|now apply space_encodable]. unfold encodable in Y. rewrite Forall_forall in Y. apply Y, nth_In. unfold zlen in Q. lia.
Qed.
Lemma text_lines_encodable e s ls : encodable e s -> text_lines s ls -> Forall (encodable e) ls.
Proof.
  intros Y H. induction H as [|l N0 N|l rest ls N H IH|l c rest ls N C X H IH]; constructor; auto; unfold encodable in *;
    rewrite ?Forall_app in Y; try tauto; apply IH; tauto.
Qed.
Lemma pieces_encodable e w l ps : encodable e l -> pieces w l ps -> Forall (encodable e) ps.
Proof.
  intros Y H. induction H; constructor; auto; unfold encodable in *; rewrite ?Forall_app in Y; try tauto.
Qed.
Lemma page_lines_encodable e s content : encodable e s -> page_lines s content -> Forall (encodable e) content.
Proof.
  intros Y (ls & pss & T & F & ->). pose proof (text_lines_encodable e s ls Y T) as Q. clear T Y.
  induction F as [|l ps ls pss H _ IH]; cbn; auto. inversion Q; subst. apply Forall_app. split; auto. eapply pieces_encodable; eauto.
Qed.
Lemma format_page_ok s e pages : supported e -> encodable e s -> format_extended_textual_header s e false = Ok pages ->
  Forall (page_ok e) pages.
Proof.
  intros S Y E. destruct (format_pages s e S) as (pages' & content & k & E' & P & K & L & F). rewrite E in E'. injection E' as <-.
  assert (Q : Forall (encodable e) (content ++ zrepeat [] k)).
  { apply Forall_app. split. { eapply page_lines_encodable; eauto. } apply Forall_forall. intros x H. apply repeat_spec in H. subst. constructor. }
  assert (G : Forall (fun l => zlen l = 80 /\ encodable e l) (concat pages)).
  { clear -F Q S. revert Q. induction F as [|s r ss rs H _ IH]; intros Q; constructor; inversion Q; subst; auto.
    split. { eapply header_line_zlen; eauto. } destruct H as (b & Fb & ->). apply Forall_app. split. { eapply fitted_encodable; eauto. }
    destruct S as [->| ->]; repeat constructor; cbn; lia. }
  clear -L G. revert G. induction L as [|p pages L _ IH]; intros G; constructor; cbn [concat] in G; apply Forall_app in G; [|tauto]. split; tauto.
Qed.

(* ------------------------------------------------------------------ *)
(* blank lines (C50)                                                    *)

Lemma no_blank_occupied s content ls : page_lines s content -> text_lines s ls -> Forall (fun l => l <> []) ls ->
  exists pss, Forall2 (pieces 78) ls pss /\ content = concat pss /\ Forall (fun ps => ps <> []) pss.
Proof.
  intros (ls' & pss & T & F & ->) T' N. rewrite (text_lines_unique s ls' ls T T') in F. exists pss. split; auto. split; auto.
  clear T T'. induction F as [|l ps ls pss H _ IH]; constructor; inversion N; subst; auto. intros ->. inversion H; subst. congruence.
Qed.
