(* Proofs about reading and writing textual headers. *)
From Coq Require Import String ZArith List Bool Lia.
From Coq Require Import ZifyBool ZifyNat.
From Verif Require Import Py PyFacts Util UtilFacts FileIO Text TextIO Spec_Text TextFacts.
Import ListNotations.
Open Scope Z_scope.

(* ------------------------------------------------------------------ *)
(* lists                                                                *)

Lemma zlen_to_nat {A} (l : list A) : Z.to_nat (zlen l) = length l.
Proof. unfold zlen. lia. Qed.
Lemma firstn_zlen_app {A} (l m : list A) n : n = zlen l -> firstn (Z.to_nat n) (l ++ m) = l.
Proof. intros ->. rewrite zlen_to_nat, firstn_app, Nat.sub_diag, firstn_all. cbn [firstn]. apply app_nil_r. Qed.
Lemma skipn_zlen_app {A} (l m : list A) n : n = zlen l -> skipn (Z.to_nat n) (l ++ m) = m.
Proof. intros ->. rewrite zlen_to_nat, skipn_app, Nat.sub_diag, skipn_all. reflexivity. Qed.
Lemma py_slice_app {A} (a b c : list A) i j : i = zlen a -> j = zlen a + zlen b -> py_slice (a ++ b ++ c) i j = b.
Proof. intros -> ->. unfold py_slice. rewrite skipn_zlen_app by auto. apply firstn_zlen_app. lia. Qed.
Lemma zlen_py_slice {A} (l : list A) a b : 0 <= a -> a <= b -> zlen (py_slice l a b) = Z.max 0 (Z.min b (zlen l) - a).
Proof. intros. unfold py_slice. rewrite zlen_firstn, zlen_skipn. pose proof (zlen_nonneg l). lia. Qed.

Lemma batched_loop_chunk {A} n (padding : option A) rest l : forall pending,
  zlen (pending ++ rest) = n -> rest <> [] ->
  batched_loop n padding pending (rest ++ l) = (pending ++ rest) :: batched_loop n padding [] l.
Proof.
  induction rest as [|x rest IH]; intros pending H N; [congruence|]. cbn [app batched_loop].
  rewrite zlen_app, zlen_cons in H. pose proof (zlen_nonneg rest).
  rewrite zlen_app, zlen_cons, zlen_nil. destruct (zlen pending + (1 + 0) =? n) eqn:E.
  - assert (rest = []) as -> by (apply zlen_0; lia). reflexivity.
  - assert (rest <> []) by (intros ->; rewrite zlen_nil in *; lia).
    rewrite IH; auto. { now rewrite <- app_assoc. } rewrite <- app_assoc. cbn [app]. rewrite zlen_app, zlen_cons. lia.
Qed.
Lemma batched_loop_concat {A} n (padding : option A) bs l : 1 <= n -> Forall (fun b => zlen b = n) bs ->
  batched_loop n padding [] (concat bs ++ l) = bs ++ batched_loop n padding [] l.
Proof.
  intros Hn. induction 1 as [|b bs H _ IH]; auto. cbn [concat]. rewrite <- app_assoc, batched_loop_chunk; auto.
  - cbn [app]. now rewrite IH.
  - intros ->. rewrite zlen_nil in H. lia.
Qed.
Lemma batched_concat {A} (bs : list (list A)) n padding : 1 <= n -> Forall (fun b => zlen b = n) bs ->
  batched (concat bs) n padding = Ok bs.
Proof.
  intros Hn H. unfold batched. replace (n <? 1) with false by lia. rewrite <- (app_nil_r (concat bs)), batched_loop_concat; auto.
  cbn. now rewrite app_nil_r.
Qed.
Lemma concat_zlen {A} (bs : list (list A)) n : Forall (fun b => zlen b = n) bs -> zlen (concat bs) = zlen bs * n.
Proof. induction 1; auto. cbn [concat]. rewrite zlen_app, zlen_cons. lia. Qed.

Lemma nth_repeat_lt {A} (x d : A) n i : (i < n)%nat -> nth i (repeat x n) d = x.
Proof. revert i. induction n; intros [|i] H; cbn; auto; try lia. apply IHn. lia. Qed.

(* a buffer of m * n bytes is m chunks of n *)
Lemma batched_exact {A} (l : list A) n m : 1 <= n -> 0 <= m -> zlen l = m * n ->
  exists bs, batched l n None = Ok bs /\ zlen bs = m /\ Forall (fun b => zlen b = n) bs /\ concat bs = l.
Proof.
  intros Hn Hm. revert l. pattern m. apply natlike_ind; auto.
  - intros l H. assert (l = []) as -> by (apply zlen_0; lia). exists []. split; [|repeat split; auto].
    unfold batched. now replace (n <? 1) with false by lia.
  - intros k Hk IH l H. destruct (IH (skipn (Z.to_nat n) l)) as (bs & E & L & F & C).
    { rewrite zlen_skipn. lia. }
    exists (firstn (Z.to_nat n) l :: bs).
    assert (F' : Forall (fun b => zlen b = n) (firstn (Z.to_nat n) l :: bs)).
    { constructor; auto. rewrite zlen_firstn. lia. }
    assert (C' : concat (firstn (Z.to_nat n) l :: bs) = l) by (cbn [concat]; rewrite C; apply firstn_skipn).
    split. { rewrite <- C' at 1. now apply batched_concat. } split; auto. rewrite zlen_cons. lia.
Qed.

(* ------------------------------------------------------------------ *)
(* files                                                                *)

Lemma read_app pre b post n : n = zlen b ->
  read n (mk_file (pre ++ b ++ post) (zlen pre)) = (Ok b, mk_file (pre ++ b ++ post) (zlen pre + n)).
Proof. intros ->. unfold read. cbn [f_data f_pos]. rewrite py_slice_app; auto. Qed.

Definition padded_prefix (d : list Z) (p : Z) : list Z := firstn (Z.to_nat p) (d ++ zrepeat 0 (p - zlen d)).
Lemma padded_prefix_len d p : 0 <= p -> zlen (padded_prefix d p) = p.
Proof. intros. unfold padded_prefix. rewrite zlen_firstn, zlen_app, zlen_zrepeat_max. pose proof (zlen_nonneg d). lia. Qed.
Lemma write_run b f : b <> [] -> 
  write b f = (Ok tt, mk_file (padded_prefix (f_data f) (f_pos f) ++ b ++ skipn (Z.to_nat (f_pos f + zlen b)) (f_data f)) (f_pos f + zlen b)).
Proof. intros H. destruct b; [congruence|]. reflexivity. Qed.

Lemma nth_firstn' {A} (l : list A) n i d : (i < n)%nat -> nth i (firstn n l) d = nth i l d.
Proof. revert n i. induction l; intros [|n] [|i] H; cbn; auto; try lia. apply IHl. lia. Qed.
Lemma nth_skipn' {A} (l : list A) n i d : nth i (skipn n l) d = nth (n + i) l d.
Proof. revert n. induction l; intros [|n]; cbn; auto. now destruct i. Qed.
Lemma padded_prefix_nth d p i : 0 <= i < p -> nth (Z.to_nat i) (padded_prefix d p) 0 = nth (Z.to_nat i) d 0.
Proof.
  intros H. unfold padded_prefix. rewrite nth_firstn' by lia. destruct (Z_lt_dec i (zlen d)) as [L|L].
  - rewrite app_nth1; auto. unfold zlen in L. lia.
  - rewrite app_nth2 by (unfold zlen in L; lia). rewrite (nth_overflow d) by (unfold zlen in L; lia).
    unfold zrepeat. generalize (Z.to_nat (p - zlen d)). intros n. generalize (Z.to_nat i - length d)%nat. intros m.
    revert m. induction n; intros [|m]; cbn; auto.
Qed.

Lemma write_wrote b f : b <> [] -> 0 <= f_pos f -> exists f', write b f = (Ok tt, f') /\ wrote f b f'.
Proof.
  intros N P. rewrite write_run by auto. eexists. split; [reflexivity|]. unfold wrote. cbn [f_data f_pos].
  set (d := f_data f). set (p := f_pos f) in *. pose proof (padded_prefix_len d p P) as L.
  pose proof (zlen_nonneg d). pose proof (zlen_nonneg b).
  split; [reflexivity|]. split; [|split].
  - rewrite !zlen_app, zlen_skipn, L. lia.
  - intros i Hi. rewrite app_nth2 by (unfold zlen in *; lia). rewrite app_nth1 by (unfold zlen in *; lia). f_equal. unfold zlen in *. lia.
  - intros i Hi Ho. rewrite !zlen_app, zlen_skipn, L in Hi. destruct (Z_lt_dec i p) as [Q|Q].
    + rewrite app_nth1 by (unfold zlen in *; lia). now apply padded_prefix_nth.
    + rewrite app_nth2 by (unfold zlen in *; lia). rewrite app_nth2 by (unfold zlen in *; lia). rewrite nth_skipn'. f_equal.
      unfold zlen in *. lia.
Qed.

(* ------------------------------------------------------------------ *)
(* cards                                                                *)

Definition fit (width : Z) (s : text) : text := ljust (py_slice s 0 width) width.
Lemma fit_fitted width s : 0 <= width -> fitted width s (fit width s).
Proof.
  intros W. unfold fitted, fit, ljust, py_slice. rewrite skipn_O, Z.sub_0_r. pose proof (zlen_nonneg s). split.
  - rewrite zlen_app, zlen_zrepeat_max, zlen_firstn. lia.
  - intros i Hi. destruct (i <? zlen s) eqn:E.
    + rewrite app_nth1 by (rewrite firstn_length; unfold zlen in *; lia). apply nth_firstn'. lia.
    + rewrite app_nth2 by (rewrite firstn_length; unfold zlen in *; lia).
      unfold zrepeat. rewrite nth_repeat_lt; auto. rewrite zlen_firstn, firstn_length. unfold zlen in *. lia.
Qed.
Lemma fitted_unique width s r r' : fitted width s r -> fitted width s r' -> r = r'.
Proof.
  intros (L & H) (L' & H'). apply nth_ext with (d := 0) (d' := 0). { unfold zlen in *. lia. }
  intros n Hn. specialize (H (Z.of_nat n)). specialize (H' (Z.of_nat n)). rewrite Nat2Z.id in *.
  rewrite H, H' by (unfold zlen in *; lia). reflexivity.
Qed.
Lemma fit_zlen width s : 0 <= width -> zlen (fit width s) = width.
Proof. intros. now apply fit_fitted. Qed.
Lemma fit_id width s : zlen s = width -> fit width s = s.
Proof.
  intros <-. unfold fit, ljust, py_slice. cbn [skipn Z.to_nat]. rewrite Z.sub_0_r, zlen_to_nat, firstn_all.
  rewrite Z.sub_diag. unfold zrepeat. cbn [Z.to_nat repeat]. apply app_nil_r.
Qed.

Lemma encodable_firstn e s n : encodable e s -> encodable e (firstn n s).
Proof. unfold encodable. rewrite !Forall_forall. intros H x Hx. apply H. revert Hx. revert n. induction s; intros [|n]; cbn; auto; intros []; auto.
  right. eapply IHs; eauto. intros y Hy. apply H. now right. Qed.
Lemma space_encodable e : supported e -> encodable_char e SPACE.
Proof. intros [->| ->]; unfold SPACE; cbn; lia. Qed.

Lemma encode_card_ok e s : supported e -> encodable e s ->
  exists c, encode_card e s = Ok c /\ zlen c = 80 /\ bytes_ok c /\ encode e (fit 80 s) = Ok c /\ decode e c = Ok (fit 80 s).
Proof.
  intros S Y. destruct (enc1_ok e SPACE S (space_encodable e S)) as (sp & Es & Rs & Ds).
  destruct (encode_decode e s S Y) as (b & E & L & B & D).
  assert (Esp : encode e [SPACE] = Ok [sp]) by (rewrite encode_map by auto; cbn [map_res]; rewrite Es; reflexivity).
  unfold encode_card. rewrite E, Esp. cbn [bind]. eexists. split; [reflexivity|].
  set (c := py_slice (b ++ zrepeat sp (CARD_LENGTH - zlen b)) 0 CARD_LENGTH).
  assert (Q : encode e (fit 80 s) = Ok c).
  { assert (EQ : c = firstn 80 b ++ zrepeat sp (80 - zlen b)).
    { unfold c, py_slice. cbn [skipn Z.to_nat]. change (Z.to_nat (CARD_LENGTH - 0)) with 80%nat. rewrite firstn_app. f_equal.
      unfold zrepeat, CARD_LENGTH. rewrite firstn_all2; auto. rewrite repeat_length. unfold zlen. lia. }
    rewrite EQ. rewrite encode_map in * by auto. unfold fit, ljust, py_slice. cbn [skipn Z.to_nat]. change (Z.to_nat (80 - 0)) with 80%nat.
    apply map_res_app_ok. { now apply map_res_firstn. }
    replace (80 - zlen (firstn 80 s)) with (Z.max 0 (80 - zlen s)) by (rewrite zlen_firstn; lia).
    unfold zrepeat. replace (Z.to_nat (80 - zlen b)) with (Z.to_nat (Z.max 0 (80 - zlen s))) by lia. now apply map_res_repeat. }
  assert (Y' : encodable e (fit 80 s)).
  { unfold fit, ljust, py_slice. cbn [skipn]. apply Forall_app. split. { now apply encodable_firstn. }
    apply Forall_forall. intros x Hx. apply repeat_spec in Hx. subst. now apply space_encodable. }
  destruct (encode_decode e (fit 80 s) S Y') as (c' & E' & L' & B' & D'). rewrite Q in E'. injection E' as <-.
  rewrite fit_zlen in L' by lia. auto.
Qed.

Lemma encode_card_err e s : supported e -> is_text s -> ~ encodable e s -> encode_card e s = Err UnicodeEncodeError.
Proof. intros S T N. unfold encode_card. now rewrite (encode_err e s S T N). Qed.

Definition forty (lines : list text) : list text := pad_to lines [] 40.
Lemma forty_zlen lines : zlen (forty lines) = 40.
Proof. apply pad_to_spec. lia. Qed.
Lemma forty_nth lines i : (i < 40)%nat -> nth i (forty lines) [] = nth i lines [].
Proof.
  intros H. unfold forty. rewrite pad_to_eq by lia. change (Z.to_nat 40) with 40%nat. destruct (Nat.lt_ge_cases i (length lines)) as [L|L].
  - rewrite app_nth1 by (rewrite firstn_length; lia). now apply nth_firstn'.
  - rewrite app_nth2 by (rewrite firstn_length; lia). rewrite (nth_overflow lines) by auto.
    unfold zrepeat. generalize (i - length (firstn 40 lines))%nat. intros m. generalize (Z.to_nat (40 - zlen lines)). intros n.
    revert m. induction n; intros [|m]; cbn; auto.
Qed.
Lemma forty_Forall (P : text -> Prop) lines : P [] -> (Forall P (forty lines) <-> Forall P (firstn 40 lines)).
Proof.
  intros P0. unfold forty. rewrite pad_to_eq by lia. change (Z.to_nat 40) with 40%nat. rewrite Forall_app. split; [tauto|].
  intros H. split; auto. apply Forall_forall. intros x Hx. apply repeat_spec in Hx. now subst.
Qed.

Lemma cards_ok e lines : supported e -> Forall (encodable e) lines ->
  exists cs, map_res (encode_card e) lines = Ok cs /\ Forall (fun c => zlen c = 80) cs /\ zlen cs = zlen lines /\
    map_res (decode e) cs = Ok (map (fit 80) lines).
Proof.
  intros S. induction 1 as [|l lines Y _ (cs & E & F & L & D)].
  - exists []. repeat split; auto.
  - destruct (encode_card_ok e l S Y) as (c & Ec & Lc & _ & _ & Dc). exists (c :: cs). cbn [map_res map]. rewrite Ec, E, Dc, D. cbn [bind].
    rewrite !zlen_cons. repeat split; auto; lia.
Qed.

(* reading 3200 bytes that are forty encoded cards *)
Lemma read_cards e pre cs post ls : zlen cs = 40 -> Forall (fun c => zlen c = 80) cs -> map_res (decode e) cs = Ok ls ->
  read_textual_reel_header e (mk_file (pre ++ concat cs ++ post) (zlen pre)) =
    (Ok ls, mk_file (pre ++ concat cs ++ post) (zlen pre + 3200)).
Proof.
  intros L F D. unfold read_textual_reel_header, ibind. assert (Lc : zlen (concat cs) = 3200) by (rewrite (concat_zlen _ 80) by auto; lia).
  rewrite read_app by (rewrite Lc; reflexivity). change TEXTUAL_HEADER_NUM_BYTES with 3200. rewrite Lc, Z.ltb_irrefl.
  unfold lift. change CARD_LENGTH with 80. rewrite batched_concat by (auto; lia). cbn [bind]. now rewrite D.
Qed.

Lemma write_textual_ok e lines f : supported e -> Forall (encodable e) (firstn 40 lines) -> 0 <= f_pos f ->
  exists cs, zlen cs = 40 /\ Forall (fun c => zlen c = 80) cs /\
    map_res (decode e) cs = Ok (map (fit 80) (forty lines)) /\
    write_textual_reel_header lines e f = write (concat cs) f.
Proof.
  intros S Y P. unfold write_textual_reel_header.
  replace (is_supported_encoding e) with true by (destruct S as [->| ->]; reflexivity). cbn [negb].
  assert (Y' : Forall (encodable e) (forty lines)) by (apply forty_Forall; auto; constructor).
  destruct (cards_ok e _ S Y') as (cs & E & F & L & D). rewrite forty_zlen in L. exists cs. split; auto. split; auto. split; auto.
  unfold ibind, lift. change (pad_to lines [] CARDS_PER_HEADER) with (forty lines). rewrite E.
  rewrite (concat_zlen cs 80) by auto. rewrite L. reflexivity.
Qed.

Lemma fitted_forty lines : fitted_lines 40 80 lines (map (fit 80) (forty lines)).
Proof.
  split. { now rewrite zlen_map, forty_zlen. }
  intros i Hi. pose proof (forty_zlen lines) as L. unfold zlen in L.
  assert (Q : nth (Z.to_nat i) (map (fit 80) (forty lines)) [] = fit 80 (nth (Z.to_nat i) (forty lines) [])).
  { rewrite <- (map_nth (fit 80)). apply nth_indep. rewrite map_length. lia. }
  rewrite Q, forty_nth by lia. apply fit_fitted. lia.
Qed.

Lemma textual_round_trip e lines f : supported e -> Forall (encodable e) (firstn 40 lines) -> 0 <= f_pos f ->
  exists b f' rs, write_textual_reel_header lines e f = (Ok tt, f') /\ zlen b = 3200 /\ wrote f b f' /\
    read_textual_reel_header e (mk_file (f_data f') (f_pos f)) = (Ok rs, f') /\ fitted_lines 40 80 lines rs.
Proof.
  intros S Y P. destruct (write_textual_ok e lines f S Y P) as (cs & L & F & D & W).
  assert (Lc : zlen (concat cs) = 3200) by (rewrite (concat_zlen _ 80) by auto; lia).
  assert (N : concat cs <> []) by (intros Q; rewrite Q, zlen_nil in Lc; lia).
  destruct (write_wrote (concat cs) f N P) as (f' & E & Wr). exists (concat cs), f', (map (fit 80) (forty lines)).
  rewrite W. split; auto. split; auto. split; auto. split; [|apply fitted_forty].
  rewrite write_run in E by auto. injection E as <-. cbn [f_data].
  set (pre := padded_prefix (f_data f) (f_pos f)). assert (Lp : zlen pre = f_pos f) by (now apply padded_prefix_len).
  rewrite <- Lp at 2. rewrite (read_cards e pre cs _ _ L F D), Lc, Lp. reflexivity.
Qed.

(* ------------------------------------------------------------------ *)
(* C46                                                                  *)

Lemma write_textual_refused e lines f : 
  (~ supported e -> write_textual_reel_header lines e f = (Err UnsupportedEncodingError, f)) /\
  (supported e -> Forall is_text lines -> ~ Forall (encodable e) (firstn 40 lines) ->
     write_textual_reel_header lines e f = (Err UnicodeEncodeError, f)) /\
  (supported e -> Forall (encodable e) (firstn 40 lines) -> fst (write_textual_reel_header lines e f) = Ok tt).
Proof.
  unfold write_textual_reel_header. split; [|split].
  - intros N. destruct e; cbn; auto; exfalso; apply N; [now left|now right].
  - intros S T N. replace (is_supported_encoding e) with true by (destruct S as [->| ->]; reflexivity). cbn [negb].
    unfold ibind, lift. replace (map_res (encode_card e) (pad_to lines [] CARDS_PER_HEADER)) with (@Err (list (list Z)) UnicodeEncodeError); auto.
    symmetry. change (pad_to lines [] CARDS_PER_HEADER) with (forty lines).
    assert (T' : Forall is_text (forty lines)).
    { apply forty_Forall. { constructor. } clear -T. revert T. generalize 40%nat. induction lines; intros [|n] T; cbn; auto. inversion T; auto. }
    assert (N' : ~ Forall (encodable e) (forty lines)) by (rewrite forty_Forall; auto; constructor).
    clear -S T' N'. revert N'. induction T' as [|l ls T _ IH]; intros N. { exfalso. apply N. constructor. }
    cbn [map_res]. destruct (encodable_dec e l) as [Y|Y].
    + destruct (encode_card_ok e l S Y) as (c & -> & _). cbn [bind]. rewrite IH; auto.
    + now rewrite (encode_card_err e l S T Y).
  - intros S Y. replace (is_supported_encoding e) with true by (destruct S as [->| ->]; reflexivity). cbn [negb].
    unfold ibind, lift. change (pad_to lines [] CARDS_PER_HEADER) with (forty lines).
    destruct (cards_ok e (forty lines) S) as (cs & E & F & L & D). { apply forty_Forall; auto. constructor. }
    rewrite E, (concat_zlen cs 80), L, forty_zlen by auto. cbn. unfold write. now destruct (concat cs).
Qed.

(* ------------------------------------------------------------------ *)
(* extended headers: writing                                            *)

Lemma encode_ext_line_ok e l : supported e -> zlen l = 80 -> encodable e l ->
  exists c, encode_ext_line e l = Ok c /\ zlen c = 80 /\ decode e c = Ok l.
Proof.
  intros S L Y. destruct (encode_decode e l S Y) as (c & E & Lc & B & D). exists c. unfold encode_ext_line. rewrite E. cbn [bind].
  change CARD_LENGTH with 80. rewrite Lc, L. repeat split; auto; lia.
Qed.
Lemma encode_page_ok e p : supported e -> page_ok e p ->
  exists cs, encode_page e p = Ok cs /\ zlen cs = 40 /\ Forall (fun c => zlen c = 80) cs /\ map_res (decode e) cs = Ok p.
Proof.
  intros S (L & F). assert (Q : exists cs, map_res (encode_ext_line e) p = Ok cs /\ zlen cs = zlen p /\
     Forall (fun c => zlen c = 80) cs /\ map_res (decode e) cs = Ok p).
  { clear L. induction F as [|l p (Ll & Y) _ (cs & E & Lc & Fc & D)]. { exists []. repeat split; auto. }
    destruct (encode_ext_line_ok e l S Ll Y) as (c & Ec & L' & Dc). exists (c :: cs). cbn [map_res]. rewrite Ec, E, Dc, D. cbn [bind].
    rewrite !zlen_cons. repeat split; auto; lia. }
  destruct Q as (cs & E & Lc & Fc & D). exists cs. unfold encode_page. rewrite E. cbn [bind]. rewrite Lc, L. repeat split; auto.
Qed.
Definition encoded_page e (cs : list (list Z)) (p : list text) :=
  zlen cs = 40 /\ Forall (fun c => zlen c = 80) cs /\ map_res (decode e) cs = Ok p.
Lemma encode_pages_ok e pages : supported e -> Forall (page_ok e) pages ->
  exists css, map_res (encode_page e) pages = Ok css /\ Forall2 (encoded_page e) css pages.
Proof.
  intros S. induction 1 as [|p pages H _ (css & E & F)]. { exists []. split; [reflexivity|constructor]. }
  destruct (encode_page_ok e p S H) as (cs & Ec & L & Fc & D). exists (cs :: css). cbn [map_res]. rewrite Ec, E. split; auto.
  constructor; auto. unfold encoded_page. auto.
Qed.
Lemma encoded_zlen e cs p : encoded_page e cs p -> zlen (concat cs) = 3200.
Proof. intros (L & F & _). rewrite (concat_zlen cs 80) by auto. lia. Qed.

Lemma skipn_skipn' {A} (l : list A) a b : skipn a (skipn b l) = skipn (b + a) l.
Proof. revert b. induction l; intros [|b]; cbn; auto. now destruct a. Qed.
Lemma skipn_plus {A} (l : list A) a b : 0 <= a -> 0 <= b -> skipn (Z.to_nat a) (skipn (Z.to_nat b) l) = skipn (Z.to_nat (a + b)) l.
Proof. intros. rewrite skipn_skipn'. f_equal. lia. Qed.

(* writing the pages one after the other from a position whose prefix is there *)
Lemma write_pages_run e css pages : Forall2 (encoded_page e) css pages -> forall pre old,
  write_pages css (mk_file (pre ++ old) (zlen pre)) =
    (Ok tt, mk_file (pre ++ concat (map (@concat Z) css) ++ skipn (Z.to_nat (3200 * zlen css)) old) (zlen pre + 3200 * zlen css)).
Proof.
  induction 1 as [|cs p css pages H _ IH]; intros pre old.
  - cbn. unfold ret. rewrite Z.add_0_r. reflexivity.
  - cbn [write_pages map concat]. pose proof (encoded_zlen _ _ _ H) as L. change TEXTUAL_HEADER_NUM_BYTES with 3200. rewrite L, Z.eqb_refl. cbn [negb].
    unfold ibind. rewrite write_run by (intros Q; rewrite Q, zlen_nil in L; lia). cbn [f_data f_pos].
    replace (padded_prefix (pre ++ old) (zlen pre)) with pre.
    2: { unfold padded_prefix. rewrite <- app_assoc. now rewrite firstn_zlen_app. }
    replace (skipn (Z.to_nat (zlen pre + zlen (concat cs))) (pre ++ old)) with (skipn (Z.to_nat 3200) old).
    2: { rewrite L, Z.add_comm, <- skipn_plus by (pose proof (zlen_nonneg pre); lia). f_equal. now rewrite skipn_zlen_app. }
    rewrite app_assoc. replace (zlen pre + zlen (concat cs)) with (zlen (pre ++ concat cs)) by (now rewrite zlen_app).
    rewrite IH. f_equal. rewrite zlen_cons, zlen_app, L. f_equal; [|lia].
    rewrite <- !app_assoc. do 3 f_equal. rewrite skipn_plus by (pose proof (zlen_nonneg css); lia). f_equal. lia.
Qed.

Lemma ext_unsupported e pages f : ~ supported e -> write_extended_textual_headers pages e f = (Err UnsupportedEncodingError, f).
Proof. intros N. unfold write_extended_textual_headers. destruct e; cbn; auto; exfalso; apply N; [now left|now right]. Qed.

(* a negative file position never arises *)
Lemma write_ext_run e pages f : supported e -> Forall (page_ok e) pages ->
  exists css, Forall2 (encoded_page e) css pages /\
    write_extended_textual_headers pages e f = write_pages css (mk_file (f_data f) 3600).
Proof.
  intros S F. destruct (encode_pages_ok e pages S F) as (css & E & F2). exists css. split; auto.
  unfold write_extended_textual_headers. replace (is_supported_encoding e) with true by (destruct S as [->| ->]; reflexivity). cbn [negb].
  unfold ibind, seek, lift. change (REEL_HEADER_NUM_BYTES <? 0) with false. cbn match. rewrite E. reflexivity.
Qed.

Lemma map_res_dec {A B} (f : A -> res B) l : (exists r, map_res f l = Ok r) \/ (exists e, map_res f l = Err e).
Proof. destruct (map_res f l); eauto. Qed.

Lemma encode_ext_line_cases e l : supported e -> is_text l ->
  encode_ext_line e l = (if encodable_dec e l then if zlen l =? 80 then encode e l else Err ValueError else Err UnicodeEncodeError).
Proof.
  intros S T. unfold encode_ext_line. destruct (encodable_dec e l) as [Y|N].
  - destruct (encode_decode e l S Y) as (c & E & L & _). rewrite E. cbn [bind]. change CARD_LENGTH with 80. rewrite L.
    destruct (zlen l =? 80); reflexivity.
  - now rewrite (encode_err e l S T N).
Qed.

Lemma write_ext_refused e pages f : supported e -> Forall (Forall is_text) pages -> ~ Forall (page_ok e) pages ->
  (write_extended_textual_headers pages e f = (Err ValueError, mk_file (f_data f) 3600) \/
   write_extended_textual_headers pages e f = (Err UnicodeEncodeError, mk_file (f_data f) 3600)) /\
  (Forall (Forall (encodable e)) pages -> fst (write_extended_textual_headers pages e f) = Err ValueError) /\
  (Forall (fun p => zlen p = 40 /\ Forall (fun l => zlen l = 80) p) pages ->
     fst (write_extended_textual_headers pages e f) = Err UnicodeEncodeError).
Proof.
  intros S T N. unfold write_extended_textual_headers.
  replace (is_supported_encoding e) with true by (destruct S as [->| ->]; reflexivity). cbn [negb].
  unfold ibind, seek, lift. change (REEL_HEADER_NUM_BYTES <? 0) with false. cbn match. change REEL_HEADER_NUM_BYTES with 3600.
  assert (L : forall p, Forall is_text p -> (exists cs, encode_page e p = Ok cs /\ page_ok e p) \/
     (encode_page e p = Err ValueError /\ ~ (zlen p = 40 /\ Forall (fun l => zlen l = 80) p)) \/
     (encode_page e p = Err UnicodeEncodeError /\ ~ Forall (encodable e) p)).
  { clear -S. intros p T. unfold encode_page, page_ok. destruct (map_res (encode_ext_line e) p) as [cs|x] eqn:E; cbn [bind].
    - pose proof (map_res_zlen _ _ _ E) as L. rewrite L. change CARDS_PER_HEADER with 40.
      assert (F : Forall (fun l => zlen l = 80 /\ encodable e l) p).
      { apply map_res_iff in E. clear L. induction E as [|l c p cs E1 _ IH]; constructor; inversion T; subst; auto.
        rewrite encode_ext_line_cases in E1 by auto. destruct (encodable_dec e l); [|discriminate]. destruct (zlen l =? 80) eqn:Q; [|discriminate]. split; auto; lia. }
      destruct (zlen p =? 40) eqn:Q; cbn [negb].
      + left. exists cs. repeat split; auto. lia.
      + right. left. split; auto. intros (Q' & _). lia.
    - right. apply map_res_err in E. destruct E as (a & l & b & -> & _ & El).
      assert (Tl : is_text l) by (rewrite Forall_forall in T; apply T; apply in_app_iff; right; now left).
      rewrite encode_ext_line_cases in El by auto. destruct (encodable_dec e l) as [Y|Y].
      + destruct (encode_decode e l S Y) as (c & Ec & _). rewrite Ec in El. destruct (zlen l =? 80) eqn:Q; [discriminate|]. injection El as <-. left.
        split; auto. intros (_ & F). rewrite Forall_app in F. destruct F as (_ & F). inversion F. lia.
      + injection El as <-. right. split; auto. intros F. rewrite Forall_app in F. destruct F as (_ & F). inversion F. contradiction. }
  assert (M : (map_res (encode_page e) pages = Err ValueError /\ ~ Forall (fun p => zlen p = 40 /\ Forall (fun l => zlen l = 80) p) pages) \/
     (map_res (encode_page e) pages = Err UnicodeEncodeError /\ ~ Forall (Forall (encodable e)) pages)).
  { clear -L N T. induction T as [|p pages T1 T IH]. { exfalso. apply N. constructor. }
    cbn [map_res]. destruct (L p T1) as [(cs & -> & K)|[(-> & K)|(-> & K)]]; cbn [bind].
    - destruct IH as [(-> & K')|(-> & K')]. { intros F. apply N. now constructor. }
      + left. split; auto. intros F. inversion F. contradiction.
      + right. split; auto. intros F. inversion F. contradiction.
    - left. split; auto. intros F. inversion F. contradiction.
    - right. split; auto. intros F. inversion F. contradiction. }
  destruct M as [(-> & K)|(-> & K)]; cbn [fst]; repeat split; auto; intros; try contradiction.
Qed.

(* ------------------------------------------------------------------ *)
(* C72                                                                  *)

Lemma file_length_ok f : 0 <= f_pos f -> file_length f = (Ok (zlen (f_data f)), f).
Proof.
  intros P. unfold file_length, ibind, tell, seek_end, seek, ret. cbn [f_data f_pos]. replace (f_pos f <? 0) with false by lia.
  now destruct f.
Qed.
Lemma guess_textual_ok f : 0 <= f_pos f ->
  guess_textual_header_encoding f = (Ok (guess_encoding (firstn (Z.to_nat 3200) (f_data f)) 1 2), f).
Proof.
  intros P. unfold guess_textual_header_encoding, restored_position_seek, ibind, tell, seek, read, ret. cbn [f_data f_pos].
  change (0 <? 0) with false. cbn match. cbn [f_data f_pos]. replace (f_pos f <? 0) with false by lia. cbn match. cbn [f_data f_pos].
  unfold py_slice. cbn [skipn Z.to_nat]. destruct f. reflexivity.
Qed.
