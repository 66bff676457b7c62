(* Proofs about the catalog model. *)
From Coq Require Import ZArith List Bool Lia ZifyBool ZifyNat Permutation Sorted Arith.
From Verif Require Import Py Util Catalog PyFacts Spec_Util UtilFacts Spec_Catalog.
Import ListNotations.
Open Scope Z_scope.
Ltac Zify.zify_post_hook ::= Z.div_mod_to_equations.

(* --- OrderedDict --- *)

Section Od.
Context {K : Type} (keqb : K -> K -> bool).
Hypothesis keqb_eq : forall a b, keqb a b = true <-> a = b.

Lemma keqb_neq a b : a <> b -> keqb a b = false.
Proof. intros N. destruct (keqb a b) eqn:E; auto. apply keqb_eq in E. contradiction. Qed.

Lemma od_set_new (d : list (K * Z)) k v : ~ In k (map fst d) -> od_set keqb d k v = d ++ [(k, v)].
Proof.
  induction d as [|(k', v') d IH]; cbn; intros H; auto.
  rewrite keqb_neq by (intros ->; apply H; auto). rewrite IH; auto.
Qed.

Lemma od_fold_new (items d : list (K * Z)) :
  NoDup (map fst (d ++ items)) ->
  fold_left (fun d p => od_set keqb d (fst p) (snd p)) items d = d ++ items.
Proof.
  revert d. induction items as [|(k, v) items IH]; intros d H; cbn.
  - now rewrite app_nil_r.
  - assert (Hd : ~ In k (map fst d)).
    { rewrite map_app in H. cbn in H. apply NoDup_remove_2 in H.
      rewrite in_app_iff in H. tauto. }
    rewrite od_set_new by auto. rewrite IH; rewrite <- app_assoc; auto.
Qed.

Lemma od_of_nodup (items : list (K * Z)) : NoDup (map fst items) -> od_of keqb items = items.
Proof. intros H. unfold od_of. now rewrite od_fold_new. Qed.

Lemma od_get_in (d : list (K * Z)) k v : NoDup (map fst d) -> In (k, v) d -> od_get keqb d k = Ok v.
Proof.
  induction d as [|(k', v') d IH]; cbn; intros N H; [easy|].
  inversion N as [|? ? N1 N2]; subst. destruct H as [H|H].
  - injection H as -> ->. now rewrite (proj2 (keqb_eq k k) eq_refl).
  - rewrite keqb_neq; auto. intros ->. apply N1. change k' with (fst (k', v)). now apply in_map.
Qed.

Lemma od_get_absent (d : list (K * Z)) k : ~ In k (map fst d) -> od_get keqb d k = Err KeyError.
Proof.
  induction d as [|(k', v') d IH]; cbn; intros H; auto.
  rewrite keqb_neq by (intros ->; apply H; auto). auto.
Qed.

Lemma od_mem_spec (d : list (K * Z)) k : od_mem keqb d k = true <-> In k (map fst d).
Proof.
  unfold od_mem. induction d as [|(k', v') d IH]; cbn; [split; easy|].
  destruct (keqb k k') eqn:E.
  - apply keqb_eq in E. subst. cbn. tauto.
  - rewrite IH. split; auto. intros [->|H]; auto.
    rewrite (proj2 (keqb_eq k k) eq_refl) in E. discriminate.
Qed.

Lemma od_holds (items : list (K * Z)) : NoDup (map fst items) ->
  holds_exactly (od_get keqb items) (od_mem keqb items) (zlen items) (map fst items) items.
Proof.
  intros N. constructor.
  - intros. now apply od_get_in.
  - intros. now apply od_get_absent.
  - intros. apply od_mem_spec.
  - reflexivity.
  - reflexivity.
Qed.
End Od.

Lemma holds_perm {K} get mem len iter (l m : list (K * Z)) :
  Permutation l m -> holds_exactly get mem len iter l -> holds_exactly get mem len iter m.
Proof.
  intros P [H1 H2 H3 H4 H5].
  assert (Pk : Permutation (map fst l) (map fst m)) by now apply Permutation_map.
  constructor.
  - intros k v H. apply H1. eapply Permutation_in; [symmetry|]; eauto.
  - intros k H. apply H2. intros F. apply H. eapply Permutation_in; eauto.
  - intros k. rewrite H3. split; apply Permutation_in; auto. now symmetry.
  - rewrite H4. unfold zlen. now rewrite (Permutation_length P).
  - now rewrite H5.
Qed.

Lemma has_repeat_nodup l : has_repeat l <-> ~ NoDup l.
Proof.
  unfold has_repeat, item_at. split.
  - intros (i & j & x & Hij & Hi & Hj) N. rewrite NoDup_nth_error in N.
    assert (Hl : (i < length l)%nat) by (apply nth_error_Some; congruence).
    specialize (N i j Hl). rewrite Hi, Hj in N. specialize (N eq_refl). lia.
  - intros N. induction l as [|a l IH].
    + exfalso. apply N. constructor.
    + destruct (in_dec Z.eq_dec a l) as [I|I].
      * apply In_nth_error in I. destruct I as (n & Hn). exists O, (S n), a.
        repeat split; auto; lia.
      * destruct IH as (i & j & x & Hij & Hi & Hj).
        { intros D. apply N. now constructor. }
        exists (S i), (S j), x. repeat split; auto; lia.
Qed.

Lemma sorted_le_nodup_lt l : StronglySorted Z.le l -> NoDup l -> StronglySorted Z.lt l.
Proof.
  induction 1 as [|a l S IH F]; intros N; constructor; inversion N; subst; auto.
  rewrite Forall_forall in *. intros x Hx. specialize (F x Hx).
  assert (a <> x) by (intros ->; contradiction). lia.
Qed.

Lemma sort_fst (items : list (Z * Z)) :
  Permutation (sort_by fst_leb items) items /\
  StronglySorted Z.le (map fst (sort_by fst_leb items)).
Proof.
  split; [apply sort_by_perm|]. apply (proj1 (StronglySorted_map fst Z.le _)).
  eapply StronglySorted_weaken; [|apply sort_by_sorted].
  - intros x y H. unfold fst_leb in H. lia.
  - intros; unfold fst_leb; lia.
  - unfold fst_leb; intros; lia.
Qed.

(* --- regular keys --- *)

Lemma regular_keys (ks : list Z) d : StronglySorted Z.lt ks -> 2 <= zlen ks ->
  successive_differences ks d ->
  let a := nth 0 ks 0 in let b := nth (length ks - 1) ks 0 in
  0 < d /\ a < b /\ b - a = (zlen ks - 1) * d /\
  (forall k, ((a <=? k) && (k <=? b)) && ((k - a) mod d =? 0) = true <-> In k ks) /\
  (forall n, (n < length ks)%nat -> nth n ks 0 = a + Z.of_nat n * d) /\
  range_list (mk_range a (b + 1) d) = ks.
Proof.
  intros S L D a b.
  pose proof (differences_nth ks d D) as N. fold a in N.
  assert (Hd : 0 < d).
  { assert (nth 0 ks 0 < nth 1 ks 0) by (apply StronglySorted_nth; auto; unfold zlen in L; lia).
    rewrite (N 1%nat) in H by (unfold zlen in L; lia). fold a in H. lia. }
  assert (Hb : b - a = (zlen ks - 1) * d).
  { unfold b. rewrite N by (unfold zlen in L; lia). unfold zlen in *. 
    replace (Z.of_nat (length ks - 1)) with (Z.of_nat (length ks) - 1) by lia. lia. }
  assert (Hab : a < b) by nia.
  split; auto. split; auto. split; auto.
  split.
  { intros k. split.
    - intros H. assert (H1 : a <= k /\ k <= b /\ (k - a) mod d = 0) by lia.
      destruct H1 as (H1 & H2 & H3).
      pose proof (Z.div_mod (k - a) d ltac:(lia)) as E. rewrite H3 in E.
      set (n := (k - a) / d) in *. assert (0 <= n <= zlen ks - 1) by nia.
      replace k with (nth (Z.to_nat n) ks 0); [apply nth_In; unfold zlen in *; lia|].
      rewrite N by (unfold zlen in *; lia). rewrite Z2Nat.id by lia. lia.
    - intros H. apply In_nth with (d := 0) in H. destruct H as (n & Hn & <-).
      rewrite N by auto. replace (a + Z.of_nat n * d - a) with (Z.of_nat n * d) by lia.
      rewrite Z.mod_mul by lia. unfold zlen in *.
      assert (0 <= Z.of_nat n * d) by nia.
      assert (Z.of_nat n * d <= (Z.of_nat (length ks) - 1) * d) by nia. lia. }
  split; [exact N|].
  rewrite <- (differences_range ks d D) at 1; [|lia|intros ->; rewrite zlen_nil in L; lia].
  fold a b.
  apply range_list_eq; [|reflexivity].
  unfold range_len; cbn [r_start r_stop r_step].
  replace (0 <? d) with true by lia.
  replace (a <? b + 1) with true by lia. replace (a <? b + d) with true by lia.
  replace (b + 1 - 1 - a) with (0 + (zlen ks - 1) * d) by lia.
  replace (b + d - 1 - a) with ((d - 1) + (zlen ks - 1) * d) by lia.
  rewrite !Z.div_add by lia. rewrite !Z.div_small by lia. reflexivity.
Qed.

(* --- create, one dimension --- *)

Definition holds1 (c : catalog1) (items : list (Z * Z)) : Prop :=
  holds_exactly (cat1_get c) (cat1_mem c) (cat1_len c) (cat1_iter c) items /\
  StronglySorted Z.lt (cat1_iter c).

Lemma Zeqb_spec' a b : (a =? b) = true <-> a = b. Proof. lia. Qed.

Lemma py_get_first {A} (l : list A) d : l <> [] -> py_get l 0 = Ok (nth 0 l d).
Proof.
  intros H. apply py_get_ok. destruct l; [congruence|]. rewrite zlen_cons.
  pose proof (zlen_nonneg l). lia.
Qed.

Lemma py_get_last' {A} (l : list A) d : l <> [] -> py_get l (-1) = Ok (nth (length l - 1) l d).
Proof.
  intros H. assert (0 < length l)%nat by (destruct l; cbn; [congruence|lia]).
  rewrite py_get_neg by (unfold zlen; lia).
  rewrite (py_get_ok l (-1 + zlen l) d) by (unfold zlen; lia).
  do 2 f_equal. unfold zlen; lia.
Qed.

Lemma nth_map_fst (l : list (Z * Z)) n : nth n (map fst l) 0 = fst (nth n l (0, 0)).
Proof. change 0 with (fst (0, 0)) at 1. apply map_nth. Qed.
Lemma nth_map_snd (l : list (Z * Z)) n : nth n (map snd l) 0 = snd (nth n l (0, 0)).
Proof. change 0 with (snd (0, 0)) at 1. apply map_nth. Qed.

Lemma in_nth_item (l : list (Z * Z)) k v : In (k, v) l ->
  exists n, (n < length l)%nat /\ nth n (map fst l) 0 = k /\ nth n (map snd l) 0 = v.
Proof.
  intros H. apply In_nth with (d := (0, 0)) in H. destruct H as (n & Hn & E).
  exists n. rewrite nth_map_fst, nth_map_snd, E. auto.
Qed.

Lemma create_catalog_1_holds l : l <> [] -> StronglySorted Z.lt (map fst l) ->
  exists c, create_catalog_1 l = Ok c /\ holds1 c l.
Proof.
  intros Hne S. pose proof (StronglySorted_NoDup _ S) as ND.
  assert (Hdict : holds1 (dictionary_catalog l) l).
  { unfold dictionary_catalog, holds1. rewrite od_of_nodup by (auto; apply Zeqb_spec').
    cbn. split; auto. now apply od_holds; [apply Zeqb_spec'|]. }
  unfold create_catalog_1. destruct (zlen l <=? 1) eqn:E1; [eauto|].
  assert (L : 2 <= zlen l) by lia.
  assert (Lk : zlen (map fst l) = zlen l) by apply zlen_map.
  assert (Lv : zlen (map snd l) = zlen l) by apply zlen_map.
  rewrite (py_get_first l (0, 0)), (py_get_last' l (0, 0)) by auto. cbn [bind].
  assert (Hk : map fst l <> []) by (destruct l; cbn; congruence).
  assert (Hv : map snd l <> []) by (destruct l; cbn; congruence).
  set (ks := map fst l) in *. set (vs := map snd l) in *.
  destruct (measure_stride_none ks Hk) as (ok & Ek). rewrite Ek. cbn [bind].
  destruct (measure_stride_none vs Hv) as (ov & Ev).
  assert (Elen : length ks = length l) by (unfold ks; apply map_length).
  assert (Ekmin : fst (nth 0 l (0, 0)) = nth 0 ks 0) by (unfold ks; now rewrite nth_map_fst).
  assert (Ekmax : fst (nth (length l - 1) l (0, 0)) = nth (length ks - 1) ks 0)
    by (rewrite Elen; unfold ks; now rewrite nth_map_fst).
  assert (Elv : length vs = length l) by (unfold vs; apply map_length).
  assert (Evs : snd (nth 0 l (0, 0)) = nth 0 vs 0) by (unfold vs; now rewrite nth_map_snd).
  assert (Eve : snd (nth (length l - 1) l (0, 0)) = nth (length vs - 1) vs 0)
    by (rewrite Elv; unfold vs; now rewrite nth_map_snd).
  rewrite Ekmin, Ekmax, Evs, Eve.
  (* values *)
  assert (Hvals : forall e, ov = Some e -> successive_differences vs e).
  { intros e ->. apply measure_stride_spec in Ev; tauto. }
  assert (Hconst : ov = Some 0 -> forall n, (n < length vs)%nat -> nth n vs 0 = nth 0 vs 0).
  { intros E n Hn. specialize (Hvals _ E). rewrite (differences_nth _ _ Hvals n Hn). lia. }
  destruct ok as [d|].
  - assert (D : successive_differences ks d) by (apply measure_stride_spec in Ek; tauto).
    destruct (regular_keys ks d S ltac:(lia) D) as (Hd & Hab & Hba & Hmem & Hnth & Hrange).
    set (a := nth 0 ks 0) in *. set (b := nth (length ks - 1) ks 0) in *.
    assert (Hmod : (b - a) mod d = 0) by (rewrite Hba; apply Z.mod_mul; lia).
    assert (Hdiv : (b - a) / d = zlen ks - 1) by (rewrite Hba; apply Z.div_mul; lia).
    replace (match d with 0 => Err AssertionError | _ => Ok tt end) with (Ok tt)
      by (destruct d; [lia|reflexivity|reflexivity]).
    cbn [bind]. rewrite Ev. cbn [bind].
    assert (Hregget : forall k, ~ In k ks ->
               (((a <=? k) && (k <=? b)) = false \/
                ((a <=? k) && (k <=? b)) = true /\ ((k - a) mod d =? 0) = false)).
    { intros k Hk'. destruct ((a <=? k) && (k <=? b)) eqn:X; auto. right. split; auto.
      destruct ((k - a) mod d =? 0) eqn:Y; auto. exfalso. apply Hk'. apply Hmem. now rewrite X, Y. }
    assert (Hin : forall n, (n < length ks)%nat ->
               (a <=? a + Z.of_nat n * d) && (a + Z.of_nat n * d <=? b) = true /\
               (a + Z.of_nat n * d - a) mod d = 0 /\ (a + Z.of_nat n * d - a) / d = Z.of_nat n).
    { intros n Hn.
      assert (M : ((a <=? a + Z.of_nat n * d) && (a + Z.of_nat n * d <=? b)) &&
                  ((a + Z.of_nat n * d - a) mod d =? 0) = true).
      { apply Hmem. rewrite <- Hnth by auto. now apply nth_In. }
      apply andb_true_iff in M. destruct M as (M1 & M2). split; auto.
      replace (a + Z.of_nat n * d - a) with (Z.of_nat n * d) by lia.
      rewrite Z.mod_mul, Z.div_mul by lia. auto. }
    destruct ov as [e|].
    + destruct (Z.eq_dec e 0) as [->|Ne].
      * (* regular constant *)
        rewrite (Hconst eq_refl (length vs - 1)%nat) by (unfold zlen in *; lia).
        rewrite Z.eqb_refl. unfold regular_constant_catalog.
        replace (b <? a) with false by lia. unfold py_mod. replace (d =? 0) with false by lia.
        cbn [bind]. rewrite Hmod. cbn [negb Z.eqb].
        eexists. split; [reflexivity|]. split.
        { constructor.
          - intros k v H. apply in_nth_item in H. destruct H as (n & Hn & Ek' & Ev').
            fold ks in Ek'. fold vs in Ev'. cbn [cat1_get]. 
            replace (cat1_mem (CRegConst a b d (nth 0 vs 0)) k) with true.
            + rewrite <- Ev'. f_equal. symmetry. apply (Hconst eq_refl). lia.
            + symmetry. cbn [cat1_mem]. apply Hmem. rewrite <- Ek'. apply nth_In. lia.
          - intros k H. cbn [cat1_get]. fold ks in H.
            destruct (cat1_mem (CRegConst a b d (nth 0 vs 0)) k) eqn:M; auto.
            exfalso. apply H. now apply Hmem.
          - intros k. cbn [cat1_mem]. apply Hmem.
          - cbn [cat1_len]. lia.
          - cbn [cat1_iter]. rewrite Hrange. reflexivity. }
        cbn [cat1_iter]. now rewrite Hrange.
      * (* linear *)
        assert (DV : successive_differences vs e) by auto.
        pose proof (differences_nth vs e DV) as Nv. set (va := nth 0 vs 0) in *.
        assert (Hvb : nth (length vs - 1) vs 0 - va = (zlen ks - 1) * e).
        { rewrite Nv by (unfold zlen in *; lia). unfold zlen in *.
          replace (Z.of_nat (length vs - 1)) with (Z.of_nat (length ks) - 1) by lia. lia. }
        set (vb := nth (length vs - 1) vs 0) in *.
        assert (C : match Some e with
                    | Some 0 => if va =? vb then regular_constant_catalog a b d va else Err AssertionError
                    | _ => linear_regular_catalog a b d va vb e
                    end = linear_regular_catalog a b d va vb e)
          by (destruct e; [congruence|reflexivity|reflexivity]).
        cbn beta iota in C |- *.
        replace (match e with
                 | 0 => if va =? vb then regular_constant_catalog a b d va else Err AssertionError
                 | _ => linear_regular_catalog a b d va vb e
                 end) with (linear_regular_catalog a b d va vb e)
          by (destruct e; [congruence|reflexivity|reflexivity]).
        unfold linear_regular_catalog.
        replace (b <=? a) with false by lia. replace (d <=? 0) with false by lia.
        rewrite Hmod. cbn [negb Z.eqb].
        replace (e =? 0) with false by lia.
        rewrite Hvb, Z.mod_mul by lia. cbn [negb Z.eqb].
        rewrite Z.div_mul by lia. rewrite Hdiv, Z.eqb_refl. cbn [negb].
        eexists. split; [reflexivity|]. split.
        { constructor.
          - intros k v H. apply in_nth_item in H. destruct H as (n & Hn & Ek' & Ev').
            fold ks in Ek'. fold vs in Ev'. cbn [cat1_get].
            destruct (Hin n ltac:(lia)) as (M1 & M2 & M3).
            rewrite Hnth in Ek' by lia. rewrite <- Ek'. rewrite M1, M2. cbn [negb Z.eqb].
            replace ((vb - va) * (a + Z.of_nat n * d - a)) with ((Z.of_nat n * e) * (b - a))
              by (rewrite Hvb, Hba; nia).
            rewrite Z.mod_mul, Z.div_mul by lia. cbn [Z.eqb]. rewrite <- Ev'. f_equal.
            rewrite Nv by lia. lia.
          - intros k H. fold ks in H. cbn [cat1_get].
            destruct (Hregget k H) as [X|(X & Y)]; rewrite X; [reflexivity|rewrite Y; reflexivity].
          - intros k. cbn [cat1_mem]. apply Hmem.
          - cbn [cat1_len]. lia.
          - cbn [cat1_iter]. rewrite Hrange. reflexivity. }
        cbn [cat1_iter]. now rewrite Hrange.
    + (* regular keys, arbitrary values *)
      unfold regular_catalog.
      replace (b <? a) with false by lia. unfold py_mod. replace (d =? 0) with false by lia.
      cbn [bind]. rewrite Hmod. cbn [negb Z.eqb]. rewrite Hdiv.
      replace (1 + (zlen ks - 1) =? zlen vs) with true by lia. cbn [negb].
      eexists. split; [reflexivity|]. split.
      { constructor.
        - intros k v H. apply in_nth_item in H. destruct H as (n & Hn & Ek' & Ev').
          fold ks in Ek'. fold vs in Ev'. cbn [cat1_get].
          destruct (Hin n ltac:(lia)) as (M1 & M2 & M3).
          rewrite Hnth in Ek' by lia. rewrite <- Ek'. rewrite M1, M2, M3. cbn [negb Z.eqb].
          rewrite (py_get_ok vs (Z.of_nat n) 0) by (unfold zlen; lia).
          now rewrite Nat2Z.id, Ev'.
        - intros k H. fold ks in H. cbn [cat1_get].
          destruct (Hregget k H) as [X|(X & Y)]; rewrite X; [reflexivity|rewrite Y; reflexivity].
        - intros k. cbn [cat1_mem]. apply Hmem.
        - cbn [cat1_len]. lia.
        - cbn [cat1_iter]. rewrite Hrange. reflexivity. }
      cbn [cat1_iter]. now rewrite Hrange.
  - cbn [bind]. rewrite Ev. cbn [bind]. destruct ov as [e|]; [|eauto].
    destruct (Z.eq_dec e 0) as [->|Ne].
    + rewrite (Hconst eq_refl (length vs - 1)%nat) by (unfold zlen in *; lia).
      rewrite Z.eqb_refl. eexists. split; [reflexivity|].
      unfold constant_catalog, sfs_new. rewrite sorted_set_id by auto. split; [|exact S].
      constructor.
      * intros k v H. apply in_nth_item in H. destruct H as (n & Hn & Ek' & Ev').
        fold ks in Ek'. fold vs in Ev'. cbn [cat1_get cat1_mem].
        replace (sfs_mem ks k) with true.
        -- f_equal. rewrite <- Ev'. symmetry. apply (Hconst eq_refl). lia.
        -- symmetry. apply sfs_mem_spec; auto. rewrite <- Ek'. apply nth_In. lia.
      * intros k H. cbn [cat1_get cat1_mem]. fold ks in H.
        destruct (sfs_mem ks k) eqn:M; auto. exfalso. apply H. now apply sfs_mem_spec.
      * intros k. cbn [cat1_mem]. now apply sfs_mem_spec.
      * cbn [cat1_len]. lia.
      * reflexivity.
    + exists (dictionary_catalog l). split; auto. destruct e; [congruence|reflexivity|reflexivity].
Qed.

Lemma create1_dup items : items <> [] ->
  exists dup, contains_duplicates (map fst (sort_by fst_leb items)) = Ok dup /\
    (dup = true <-> ~ NoDup (map fst items)).
Proof.
  intros Hne. destruct (sort_fst items) as (P & S).
  assert (Hne' : map fst (sort_by fst_leb items) <> []).
  { intros E. apply map_eq_nil in E. rewrite E in P. apply Permutation_nil in P. auto. }
  destruct (contains_duplicates_spec _ false Hne' S) as (b & E & H).
  exists b. split; auto. rewrite H, has_repeat_nodup.
  assert (Pk : Permutation (map fst (sort_by fst_leb items)) (map fst items)) by now apply Permutation_map.
  split; intros N D; apply N.
  - eapply Permutation_NoDup; [symmetry|]; eauto.
  - eapply Permutation_NoDup; eauto.
Qed.

Lemma create1_holds items : items <> [] -> NoDup (map fst items) ->
  exists c, fst (create1 items) = Ok (Some c) /\ holds1 c items.
Proof.
  intros Hne ND. unfold create1. destruct (create1_dup items Hne) as (dup & E & Hd).
  cbn [fst]. rewrite E. cbn [bind].
  assert (dup = false) as -> by (destruct dup; auto; exfalso; now apply Hd).
  destruct (sort_fst items) as (P & S).
  assert (ND' : NoDup (map fst (sort_by fst_leb items))).
  { eapply Permutation_NoDup; [|exact ND]. symmetry. now apply Permutation_map. }
  destruct (create_catalog_1_holds (sort_by fst_leb items)) as (c & Ec & (Hc & Sc)).
  - intros F. rewrite F in P. apply Permutation_nil in P. auto.
  - now apply sorted_le_nodup_lt.
  - rewrite Ec. cbn. exists c. split; auto. split; auto. eapply holds_perm; eauto.
Qed.

Lemma create1_none items : items <> [] ->
  fst (create1 items) = Ok None <-> ~ NoDup (map fst items).
Proof.
  intros Hne. destruct (create1_dup items Hne) as (dup & E & Hd).
  unfold create1. cbn [fst]. rewrite E. cbn [bind]. destruct dup.
  - split; intros _; [now apply Hd|reflexivity].
  - split.
    + destruct (create_catalog_1 (sort_by fst_leb items)); discriminate.
    + intros N. apply Hd in N. discriminate.
Qed.

(* the items left in the builder are the same, so it can go on *)
Lemma create1_state items : Permutation (snd (create1 items)) items.
Proof. cbn. apply sort_by_perm. Qed.

(* --- two dimensions --- *)

Definition lex (p q : Z * Z) : Prop := fst p < fst q \/ (fst p = fst q /\ snd p < snd q).

(* strictly sorted lists with the same elements are equal, any strict order *)
Lemma ss_ext {A} (R : A -> A -> Prop) l m :
  (forall x y, R x y -> R y x -> False) ->
  StronglySorted R l -> StronglySorted R m -> (forall x, In x l <-> In x m) -> l = m.
Proof.
  intros asym S. revert m. induction S as [|a l S IH F]; intros m Sm H.
  - destruct m as [|b m]; auto. exfalso. apply (H b). now left.
  - destruct Sm as [|b m Sm Fm].
    + exfalso. apply (H a). now left.
    + rewrite Forall_forall in F, Fm.
      assert (a = b).
      { destruct (proj1 (H a) (or_introl eq_refl)) as [<-|Ha]; auto.
        destruct (proj2 (H b) (or_introl eq_refl)) as [->|Hb]; auto.
        specialize (F _ Hb). specialize (Fm _ Ha). exfalso; eauto. }
      subst b. f_equal. apply IH; auto. intros x. split; intros Hx.
      * destruct (proj1 (H x) (or_intror Hx)) as [->|]; auto.
        specialize (F _ Hx). exfalso; eauto.
      * destruct (proj2 (H x) (or_intror Hx)) as [->|]; auto.
        specialize (Fm _ Hx). exfalso; eauto.
Qed.

Lemma lex_asym x y : lex x y -> lex y x -> False. Proof. unfold lex. lia. Qed.

Lemma pair_eqb_spec a b : pair_eqb a b = true <-> a = b.
Proof.
  destruct a, b. unfold pair_eqb; cbn. split; intros H.
  - f_equal; lia.
  - injection H as -> ->. lia.
Qed.

Lemma list_prod_sorted I J : StronglySorted Z.lt I -> StronglySorted Z.lt J ->
  StronglySorted lex (list_prod I J).
Proof.
  intros SI SJ. induction SI as [|i I SI IH F]; cbn; [constructor|].
  apply StronglySorted_app; auto.
  - apply (proj1 (StronglySorted_map (fun y : Z => (i, y)) lex J)).
    eapply StronglySorted_weaken; [|exact SJ]. unfold lex; cbn; lia.
  - intros p q Hp Hq. apply in_map_iff in Hp. destruct Hp as (y & <- & _).
    destruct q as (i', j'). apply in_prod_iff in Hq. destruct Hq as (Hq & _).
    rewrite Forall_forall in F. specialize (F _ Hq). left; cbn; lia.
Qed.

Lemma nth_list_prod {A} (I J : list A) d n m :
  (n < length I)%nat -> (m < length J)%nat ->
  nth (n * length J + m) (list_prod I J) (d, d) = (nth n I d, nth m J d).
Proof.
  revert n. induction I as [|i I IH]; intros n Hn Hm; cbn [length] in Hn; [lia|].
  cbn [list_prod]. destruct n as [|n].
  - cbn [Nat.mul Nat.add]. rewrite app_nth1 by (rewrite map_length; auto).
    rewrite (nth_indep _ (d, d) (i, d)) by (rewrite map_length; auto).
    now rewrite (map_nth (fun y => (i, y))).
  - rewrite app_nth2 by (rewrite map_length; lia). rewrite map_length.
    replace (S n * length J + m - length J)%nat with (n * length J + m)%nat by lia.
    rewrite IH by lia. reflexivity.
Qed.

Definition keys_grid (ks : list (Z * Z)) (I J : list Z) : Prop :=
  (forall x, In x I <-> In x (map fst ks)) /\ (forall x, In x J <-> In x (map snd ks)).

Lemma nodup_list_prod I J : StronglySorted Z.lt I -> StronglySorted Z.lt J -> NoDup (list_prod I J).
Proof.
  intros SI SJ. pose proof (list_prod_sorted I J SI SJ) as S.
  induction S as [|a l S IH F]; constructor; auto.
  rewrite Forall_forall in F. intros H. specialize (F _ H). eapply lex_asym; eauto.
Qed.

Lemma grid_full ks I J : NoDup ks -> StronglySorted Z.lt I -> StronglySorted Z.lt J ->
  keys_grid ks I J -> zlen I * zlen J = zlen ks ->
  forall p, In p ks <-> In p (list_prod I J).
Proof.
  intros ND SI SJ (GI & GJ) L.
  assert (Inc : incl ks (list_prod I J)).
  { intros (i, j) H. apply in_prod_iff. split.
    - apply GI. change i with (fst (i, j)). now apply in_map.
    - apply GJ. change j with (snd (i, j)). now apply in_map. }
  intros p. split; [apply Inc|].
  apply NoDup_length_incl; auto. rewrite prod_length. unfold zlen in L. lia.
Qed.

Lemma grid_rows ks I J : StronglySorted lex ks -> StronglySorted Z.lt I -> StronglySorted Z.lt J ->
  keys_grid ks I J -> zlen I * zlen J = zlen ks -> ks = list_prod I J.
Proof.
  intros S SI SJ G L.
  assert (ND : NoDup ks).
  { clear -S. induction S as [|a l S IH F]; constructor; auto.
    rewrite Forall_forall in F. intros H. specialize (F _ H). eapply lex_asym; eauto. }
  apply (ss_ext lex); auto using list_prod_sorted.
  - exact lex_asym.
  - apply grid_full; auto.
Qed.

(* distinct sorted sequence from an iterator, ascending *)
Lemma msds_asc l : l <> [] -> exists s,
  make_sorted_distinct_sequence (ItIter l) SAscending = Ok s /\ sseq_wf s /\
  (forall x, In x (sseq_list s) <-> In x l) /\ StronglySorted Z.lt (sseq_list s).
Proof.
  intros H. destruct (msds_list (ItIter l) SAscending) as (s & E & W & I & S & _); auto;
    try discriminate.
  exists s. auto.
Qed.

Lemma sseq_sorted_init s : sseq_wf s -> StronglySorted Z.lt (sseq_list s) -> sseq_list s <> [] ->
  is_sorted_distinct_sseq s = Ok true.
Proof.
  destruct s as [r|l|l]; cbn [is_sorted_distinct_sseq sseq_list sseq_wf]; intros W S N.
  - destruct (is_sorted_range_spec r false true W N) as (b & -> & H).
    f_equal. apply H. exact S.
  - reflexivity.
  - destruct (is_sorted_spec (fun x => x) (rsv_list l) false true N) as (b & -> & H).
    f_equal. apply H. now rewrite map_id.
Qed.

Lemma sseq_nodup s : sseq_wf s -> NoDup (sseq_list s).
Proof.
  destruct s as [r|l|l]; cbn; intros W.
  - pose proof (range_sorted r W) as S. destruct (0 <? r_step r).
    + now apply StronglySorted_NoDup.
    + now apply StronglySorted_gt_NoDup.
  - now apply StronglySorted_NoDup.
  - apply NoDup_rev. now apply StronglySorted_NoDup.
Qed.

Lemma sseq_index_nth s n : sseq_wf s -> (n < length (sseq_list s))%nat ->
  sseq_index s (nth n (sseq_list s) 0) = Ok (Z.of_nat n).
Proof.
  intros W Hn. rewrite sseq_index_spec by auto. apply list_index_spec.
  split; [lia|]. rewrite Nat2Z.id. split; [now apply nth_error_nth'|].
  intros j Hj E. pose proof (sseq_nodup s W) as ND. rewrite NoDup_nth_error in ND.
  specialize (ND n (Z.to_nat j) Hn). rewrite E, (nth_error_nth' _ 0) in ND by auto.
  specialize (ND eq_refl). lia.
Qed.

(* lookup in the row-major catalog: index arithmetic *)
Lemma c2last_get ir jr vr n m : sseq_wf ir -> sseq_wf jr ->
  sseq_len ir * sseq_len jr = sseq_len vr ->
  (n < length (sseq_list ir))%nat -> (m < length (sseq_list jr))%nat ->
  cat2_get (C2Last ir jr vr) (nth n (sseq_list ir) 0, nth m (sseq_list jr) 0)
  = Ok (nth (n * length (sseq_list jr) + m) (sseq_list vr) 0).
Proof.
  intros Wi Wj L Hn Hm. cbn [cat2_get cat2_mem fst snd].
  assert (M1 : sseq_mem ir (nth n (sseq_list ir) 0) = true)
    by (apply sseq_mem_spec; auto; now apply nth_In).
  assert (M2 : sseq_mem jr (nth m (sseq_list jr) 0) = true)
    by (apply sseq_mem_spec; auto; now apply nth_In).
  rewrite M1, M2. cbn [andb negb]. rewrite !sseq_index_nth by auto. cbn [bind].
  rewrite sseq_get_spec. rewrite !sseq_len_spec in *. unfold zlen in *.
  rewrite (py_get_ok _ _ 0) by (unfold zlen; nia). do 2 f_equal. lia.
Qed.

Lemma c2first_get ir jr vr n m : sseq_wf ir -> sseq_wf jr ->
  sseq_len ir * sseq_len jr = sseq_len vr ->
  (n < length (sseq_list ir))%nat -> (m < length (sseq_list jr))%nat ->
  cat2_get (C2First ir jr vr) (nth n (sseq_list ir) 0, nth m (sseq_list jr) 0)
  = Ok (nth (m * length (sseq_list ir) + n) (sseq_list vr) 0).
Proof.
  intros Wi Wj L Hn Hm. cbn [cat2_get cat2_mem fst snd].
  assert (M1 : sseq_mem ir (nth n (sseq_list ir) 0) = true)
    by (apply sseq_mem_spec; auto; now apply nth_In).
  assert (M2 : sseq_mem jr (nth m (sseq_list jr) 0) = true)
    by (apply sseq_mem_spec; auto; now apply nth_In).
  rewrite M1, M2. cbn [andb negb]. rewrite !sseq_index_nth by auto. cbn [bind].
  rewrite sseq_get_spec. rewrite !sseq_len_spec in *. unfold zlen in *.
  rewrite (py_get_ok _ _ 0) by (unfold zlen; nia). do 2 f_equal. lia.
Qed.

Lemma c2_mem_prod ir jr p : sseq_wf ir -> sseq_wf jr ->
  sseq_mem ir (fst p) && sseq_mem jr (snd p) = true <-> In p (list_prod (sseq_list ir) (sseq_list jr)).
Proof.
  intros Wi Wj. destruct p as (i, j). cbn [fst snd].
  rewrite andb_true_iff, in_prod_iff, !sseq_mem_spec by auto. tauto.
Qed.

(* every catalog made by the row-major constructor holds its own items *)
Definition items_of (ks : list (Z * Z)) (vs : list Z) : list ((Z * Z) * Z) := combine ks vs.

Lemma combine_map_fst {A B} (l : list A) (m : list B) : length l = length m -> map fst (combine l m) = l.
Proof. revert m. induction l; intros [|b m] H; cbn in *; try discriminate; auto. f_equal. auto. Qed.
Lemma combine_map_snd {A B} (l : list A) (m : list B) : length l = length m -> map snd (combine l m) = m.
Proof. revert m. induction l; intros [|b m] H; cbn in *; try discriminate; auto. f_equal. auto. Qed.
Lemma combine_fst_snd {A B} (l : list (A * B)) : combine (map fst l) (map snd l) = l.
Proof. induction l as [|(a, b) l IH]; cbn; congruence. Qed.

Lemma divmod_bounds N M k : (k < N * M)%nat -> (k / M < N /\ k mod M < M)%nat /\ k = (k / M * M + k mod M)%nat.
Proof.
  intros H. assert (M <> O) by (intros ->; lia). repeat split.
  - apply Nat.div_lt_upper_bound; lia.
  - now apply Nat.mod_upper_bound.
  - pose proof (Nat.div_mod k M ltac:(auto)). lia.
Qed.

Lemma last_holds ir jr vr : sseq_wf ir -> sseq_wf jr ->
  sseq_len ir * sseq_len jr = sseq_len vr ->
  holds_exactly (cat2_get (C2Last ir jr vr)) (cat2_mem (C2Last ir jr vr))
    (cat2_len (C2Last ir jr vr)) (cat2_iter (C2Last ir jr vr))
    (combine (list_prod (sseq_list ir) (sseq_list jr)) (sseq_list vr)).
Proof.
  intros Wi Wj L. set (I := sseq_list ir) in *. set (J := sseq_list jr) in *. set (V := sseq_list vr) in *.
  assert (LL : length (list_prod I J) = length V).
  { rewrite prod_length. rewrite !sseq_len_spec in L. fold I J V in L. unfold zlen in L. lia. }
  constructor.
  - intros k v H. apply In_nth with (d := ((0, 0), 0)) in H. destruct H as (n & Hn & E).
    rewrite combine_length, LL, Nat.min_id in Hn.
    rewrite combine_nth in E by auto. injection E as Ek Ev.
    rewrite <- LL, prod_length in Hn. destruct (divmod_bounds _ _ _ Hn) as ((B1 & B2) & En).
    set (a := (n / length J)%nat) in *. set (b := (n mod length J)%nat) in *.
    rewrite En in Ek, Ev. rewrite nth_list_prod in Ek by auto. subst k.
    unfold I, J in *. rewrite c2last_get by auto. now rewrite <- Ev.
  - intros k H. rewrite combine_map_fst in H by auto. cbn [cat2_get].
    destruct (cat2_mem (C2Last ir jr vr) k) eqn:M; [|reflexivity].
    exfalso. apply H. now apply c2_mem_prod.
  - intros k. rewrite combine_map_fst by auto. cbn [cat2_mem]. now apply c2_mem_prod.
  - unfold zlen. rewrite combine_length, LL, Nat.min_id, <- LL, prod_length.
    cbn [cat2_len]. rewrite !sseq_len_spec. unfold zlen. fold I J. lia.
  - rewrite combine_map_fst by auto. reflexivity.
Qed.

Lemma swap_swap p : swap (swap p) = p. Proof. now destruct p. Qed.

Lemma first_holds ir jr vr : sseq_wf ir -> sseq_wf jr ->
  sseq_len ir * sseq_len jr = sseq_len vr ->
  holds_exactly (cat2_get (C2First ir jr vr)) (cat2_mem (C2First ir jr vr))
    (cat2_len (C2First ir jr vr)) (cat2_iter (C2First ir jr vr))
    (combine (map swap (list_prod (sseq_list jr) (sseq_list ir))) (sseq_list vr)).
Proof.
  intros Wi Wj L. set (I := sseq_list ir) in *. set (J := sseq_list jr) in *. set (V := sseq_list vr) in *.
  assert (LL : length (map swap (list_prod J I)) = length V).
  { rewrite map_length, prod_length. rewrite !sseq_len_spec in L. fold I J V in L. unfold zlen in L. lia. }
  assert (Hsw : forall k, In k (map swap (list_prod J I)) <-> In k (list_prod I J)).
  { intros (i, j). rewrite in_prod_iff, in_map_iff. split.
    - intros ((j', i') & E & H). injection E as -> ->. apply in_prod_iff in H. tauto.
    - intros H. exists (j, i). split; auto. apply in_prod_iff. tauto. }
  constructor.
  - intros k v H. apply In_nth with (d := (swap (0, 0), 0)) in H. destruct H as (n & Hn & E).
    rewrite combine_length, LL, Nat.min_id in Hn.
    rewrite combine_nth in E by auto. injection E as Ek Ev.
    rewrite map_nth in Ek.
    rewrite <- LL, map_length, prod_length in Hn. destruct (divmod_bounds _ _ _ Hn) as ((B1 & B2) & En).
    set (a := (n / length I)%nat) in *. set (b := (n mod length I)%nat) in *.
    rewrite En in Ek, Ev. rewrite nth_list_prod in Ek by auto. subst k. unfold swap. cbn [fst snd].
    unfold I, J in *. rewrite c2first_get by auto. now rewrite <- Ev.
  - intros k H. rewrite combine_map_fst in H by auto. cbn [cat2_get].
    destruct (cat2_mem (C2First ir jr vr) k) eqn:M; [|reflexivity].
    exfalso. apply H. apply Hsw. now apply c2_mem_prod.
  - intros k. rewrite combine_map_fst by auto. rewrite Hsw. cbn [cat2_mem]. now apply c2_mem_prod.
  - unfold zlen. rewrite combine_length, LL, Nat.min_id, <- LL, map_length, prod_length.
    cbn [cat2_len]. rewrite !sseq_len_spec. unfold zlen. fold I J. lia.
  - rewrite combine_map_fst by auto. reflexivity.
Qed.

Lemma key12_total a b : key12_leb a b = true \/ key12_leb b a = true.
Proof. unfold key12_leb, pair_leb. lia. Qed.
Lemma key12_trans a b c : key12_leb a b = true -> key12_leb b c = true -> key12_leb a c = true.
Proof. unfold key12_leb, pair_leb. lia. Qed.
Lemma key21_total a b : key21_leb a b = true \/ key21_leb b a = true.
Proof. unfold key21_leb, pair_leb, swap. lia. Qed.
Lemma key21_trans a b c : key21_leb a b = true -> key21_leb b c = true -> key21_leb a c = true.
Proof. unfold key21_leb, pair_leb, swap. lia. Qed.

Lemma strict_of_nodup {A B} (leb : A -> A -> bool) (f : A -> B) (R : B -> B -> Prop) l :
  (forall x y, leb x y = true -> f x <> f y -> R (f x) (f y)) ->
  StronglySorted (fun a b => leb a b = true) l -> NoDup (map f l) -> StronglySorted R (map f l).
Proof.
  intros H. induction 1 as [|a l S IH F]; cbn; intros N; constructor; inversion N; subst; auto.
  rewrite Forall_map. rewrite Forall_forall in *. intros x Hx. apply H; auto.
  intros E. apply H2. rewrite E. now apply in_map.
Qed.

Lemma sort12_lex items : NoDup (map fst items) -> StronglySorted lex (map fst (sort_by key12_leb items)).
Proof.
  intros N. apply (strict_of_nodup key12_leb).
  - intros ((i, j), v) ((i', j'), v') H D. unfold key12_leb, pair_leb in H. unfold lex. cbn in *.
    assert (i <> i' \/ j <> j') by (destruct (Z.eq_dec i i'), (Z.eq_dec j j'); subst; auto).
    lia.
  - apply sort_by_sorted; [apply key12_total|apply key12_trans].
  - eapply Permutation_NoDup; [|exact N]. symmetry. apply Permutation_map, sort_by_perm.
Qed.

Lemma sort21_lex items : NoDup (map fst items) ->
  StronglySorted lex (map (fun p => swap (fst p)) (sort_by key21_leb items)).
Proof.
  intros N. apply (strict_of_nodup key21_leb).
  - intros ((i, j), v) ((i', j'), v') H D. unfold key21_leb, pair_leb, swap in H. unfold lex. cbn in *.
    assert (i <> i' \/ j <> j').
    { destruct (Z.eq_dec i i'), (Z.eq_dec j j'); subst; auto. }
    lia.
  - apply sort_by_sorted; [apply key21_total|apply key21_trans].
  - rewrite <- map_map. apply FinFun.Injective_map_NoDup.
    + intros p q E. rewrite <- (swap_swap p), <- (swap_swap q). now rewrite E.
    + eapply Permutation_NoDup; [|exact N]. symmetry. apply Permutation_map, sort_by_perm.
Qed.

(* what make_sorted_ranges establishes *)
Lemma make_sorted_ranges_spec l : l <> [] ->
  exists o, make_sorted_ranges l = Ok o /\
  match o with
  | None => True
  | Some (ir, jr, vr) =>
      sseq_wf ir /\ sseq_wf jr /\ sseq_wf vr /\
      StronglySorted Z.lt (sseq_list ir) /\ StronglySorted Z.lt (sseq_list jr) /\
      keys_grid (map fst l) (sseq_list ir) (sseq_list jr) /\
      sseq_len ir * sseq_len jr = zlen l /\ sseq_list vr = map snd l
  end.
Proof.
  intros Hne. unfold make_sorted_ranges.
  destruct (msds_asc (map (fun p => fst (fst p)) l)) as (ir & Ei & Wi & Ii & Si).
  { destruct l; cbn; congruence. }
  destruct (msds_asc (map (fun p => snd (fst p)) l)) as (jr & Ej & Wj & Ij & Sj).
  { destruct l; cbn; congruence. }
  rewrite Ei. cbn [bind]. rewrite Ej. cbn [bind].
  destruct (sseq_len ir * sseq_len jr =? zlen l) eqn:EL; cbn [negb]; [|now exists None].
  assert (Hv : map snd l <> []) by (destruct l; cbn; congruence).
  destruct (is_sorted_spec (fun x => x) (map snd l) false true Hv) as (up & -> & Hup).
  rewrite map_id in Hup. cbn [bind].
  destruct (is_sorted_spec (fun x => x) (map snd l) true true Hv) as (dn & Edn & Hdn).
  rewrite map_id in Hdn. unfold sort_rel in *.
  assert (G : keys_grid (map fst l) (sseq_list ir) (sseq_list jr)).
  { split; intros x; rewrite map_map; [apply Ii|apply Ij]. }
  destruct (msds_list (ItSeq (map snd l)) SNone) as (vr & Ev & Wv & Iv & (Sv1 & Sv2) & _);
    [discriminate|exact Hv|discriminate|reflexivity|].
  cbn [it_list] in *.
  assert (Hval : StronglySorted Z.lt (map snd l) \/ StronglySorted Z.gt (map snd l) ->
                 sseq_list vr = map snd l).
  { intros [H|H]; [|auto].
    destruct dn; [apply Sv1; now apply Hdn|].
    apply sorted_lt_ext; auto. apply Sv2. intros F. apply Hdn in F. discriminate. }
  destruct up.
  - cbn [bind negb]. rewrite Ev. cbn [bind].
    destruct (is_range ir && is_range jr && is_range vr); cbn [negb]; [|now exists None].
    eexists. split; [reflexivity|]. refine (conj Wi (conj Wj (conj Wv (conj Si (conj Sj (conj G (conj _ _))))))); [lia|].
    apply Hval. left. now apply Hup.
  - cbn [bind]. rewrite Edn. cbn [bind]. destruct dn; cbn [negb]; [|now exists None].
    rewrite Ev. cbn [bind].
    destruct (is_range ir && is_range jr && is_range vr); cbn [negb]; [|now exists None].
    eexists. split; [reflexivity|]. refine (conj Wi (conj Wj (conj Wv (conj Si (conj Sj (conj G (conj _ _))))))); [lia|].
    apply Hval. right. now apply Hdn.
Qed.

Definition holds2 (c : catalog2) (items : list ((Z * Z) * Z)) : Prop :=
  holds_exactly (cat2_get c) (cat2_mem c) (cat2_len c) (cat2_iter c) items /\
  StronglySorted Z.lt (sseq_list (cat2_i_range c)) /\
  StronglySorted Z.lt (sseq_list (cat2_j_range c)) /\
  (forall x, In x (sseq_list (cat2_i_range c)) <-> exists j v, In ((x, j), v) items) /\
  (forall x, In x (sseq_list (cat2_j_range c)) <-> exists i v, In ((i, x), v) items).

Lemma keys_grid_items (l : list ((Z * Z) * Z)) ir jr : keys_grid (map fst l) ir jr ->
  (forall x, In x ir <-> exists j v, In ((x, j), v) l) /\
  (forall x, In x jr <-> exists i v, In ((i, x), v) l).
Proof.
  intros (GI & GJ). split; intros x.
  - rewrite GI, map_map, in_map_iff. split.
    + intros (((i, j), v) & E & H). cbn in E. subst. eauto.
    + intros (j & v & H). exists ((x, j), v). auto.
  - rewrite GJ, map_map, in_map_iff. split.
    + intros (((i, j), v) & E & H). cbn in E. subst. eauto.
    + intros (i & v & H). exists ((i, x), v). auto.
Qed.

Lemma holds2_perm c l m : Permutation l m -> holds2 c l -> holds2 c m.
Proof.
  intros P (H1 & H2 & H3 & H4 & H5). repeat split; auto.
  - eapply holds_perm; eauto. 
  - eapply holds_perm; eauto. 
  - eapply holds_perm; eauto. 
  - eapply holds_perm; eauto. 
  - eapply holds_perm; eauto. 
  - eapply holds_perm; eauto. 
  - rewrite H4. intros (j & v & H). exists j, v. eapply Permutation_in; eauto.
  - intros (j & v & H). apply H4. exists j, v. eapply Permutation_in; [symmetry|]; eauto.
  - rewrite H5. intros (j & v & H). exists j, v. eapply Permutation_in; eauto.
  - intros (j & v & H). apply H5. exists j, v. eapply Permutation_in; [symmetry|]; eauto.
Qed.

Lemma list_nonempty_in {A} (l : list A) : l <> [] <-> exists x, In x l.
Proof.
  split.
  - destruct l as [|a l]; [congruence|]. intros _. exists a. now left.
  - intros (x & H) ->. destruct H.
Qed.

Lemma make_last_spec items : items <> [] -> NoDup (map fst items) ->
  exists o, make_last_index_varies_quickest_catalog_2d items = Ok o /\
  match o with None => True | Some c => holds2 c items /\ cat2_len c <> 0 end.
Proof.
  intros Hne ND. unfold make_last_index_varies_quickest_catalog_2d.
  pose proof (sort_by_perm key12_leb items) as P. pose proof (sort12_lex items ND) as S.
  set (l := sort_by key12_leb items) in *.
  assert (Hl : l <> []) by (intros F; rewrite F in P; apply Permutation_nil in P; auto).
  destruct (make_sorted_ranges_spec l Hl) as (o & -> & Ho). cbn [bind].
  destruct o as [((ir, jr), vr)|]; [|now exists None].
  destruct Ho as (Wi & Wj & Wv & Si & Sj & G & L & V).
  unfold last_index_catalog.
  assert (Lv : sseq_len vr = zlen l) by (rewrite sseq_len_spec, V; apply zlen_map).
  replace (sseq_len ir * sseq_len jr =? sseq_len vr) with true by lia. cbn [negb].
  destruct (keys_grid_items l _ _ G) as (KI & KJ).
  assert (Ni : sseq_list ir <> []).
  { destruct l as [|((i, j), v) l']; [congruence|]. apply list_nonempty_in. exists i.
    apply KI. exists j, v. now left. }
  assert (Nj : sseq_list jr <> []).
  { destruct l as [|((i, j), v) l']; [congruence|]. apply list_nonempty_in. exists j.
    apply KJ. exists i, v. now left. }
  unfold catalog2d_init. rewrite !sseq_sorted_init by auto. cbn [bind negb].
  eexists. split; [reflexivity|].
  assert (Ek : map fst l = list_prod (sseq_list ir) (sseq_list jr)).
  { apply grid_rows; auto. rewrite <- !sseq_len_spec, zlen_map. exact L. }
  split.
  - apply (holds2_perm _ l); auto. split.
    + pose proof (last_holds ir jr vr Wi Wj ltac:(lia)) as H. rewrite <- Ek, V, combine_fst_snd in H. exact H.
    + auto.
  - cbn [cat2_len]. rewrite L. destruct l; [congruence|]. rewrite zlen_cons.
    pose proof (zlen_nonneg l). lia.
Qed.

Lemma make_first_spec items : items <> [] -> NoDup (map fst items) ->
  exists o, make_first_index_varies_quickest_catalog_2d items = Ok o /\
  match o with None => True | Some c => holds2 c items /\ cat2_len c <> 0 end.
Proof.
  intros Hne ND. unfold make_first_index_varies_quickest_catalog_2d.
  pose proof (sort_by_perm key21_leb items) as P. pose proof (sort21_lex items ND) as S.
  set (l := sort_by key21_leb items) in *.
  assert (Hl : l <> []) by (intros F; rewrite F in P; apply Permutation_nil in P; auto).
  destruct (make_sorted_ranges_spec l Hl) as (o & -> & Ho). cbn [bind].
  destruct o as [((ir, jr), vr)|]; [|now exists None].
  destruct Ho as (Wi & Wj & Wv & Si & Sj & G & L & V).
  unfold first_index_catalog.
  assert (Lv : sseq_len vr = zlen l) by (rewrite sseq_len_spec, V; apply zlen_map).
  replace (sseq_len ir * sseq_len jr =? sseq_len vr) with true by lia. cbn [negb].
  destruct (keys_grid_items l _ _ G) as (KI & KJ).
  assert (Ni : sseq_list ir <> []).
  { destruct l as [|((i, j), v) l']; [congruence|]. apply list_nonempty_in. exists i.
    apply KI. exists j, v. now left. }
  assert (Nj : sseq_list jr <> []).
  { destruct l as [|((i, j), v) l']; [congruence|]. apply list_nonempty_in. exists j.
    apply KJ. exists i, v. now left. }
  unfold catalog2d_init. rewrite !sseq_sorted_init by auto. cbn [bind negb].
  eexists. split; [reflexivity|].
  assert (Ek : map (fun p => swap (fst p)) l = list_prod (sseq_list jr) (sseq_list ir)).
  { apply grid_rows; auto.
    - destruct G as (G1 & G2). split; intros x; rewrite map_map; cbn [swap fst snd].
      + rewrite G2, map_map. tauto.
      + rewrite G1, map_map. tauto.
    - rewrite <- !sseq_len_spec, zlen_map. lia. }
  split.
  - apply (holds2_perm _ l); auto. split.
    + pose proof (first_holds ir jr vr Wi Wj ltac:(lia)) as H. rewrite <- Ek, V in H.
      rewrite map_map in H.
      rewrite (map_ext _ fst) in H by (intros ((i, j), v); reflexivity).
      rewrite combine_fst_snd in H. exact H.
    + auto.
  - cbn [cat2_len]. rewrite L. destruct l; [congruence|]. rewrite zlen_cons.
    pose proof (zlen_nonneg l). lia.
Qed.

Lemma dict2_fill_spec ir jr : sseq_wf ir -> sseq_wf jr -> forall items d,
  NoDup (map fst (d ++ items)) ->
  (forall i j v, In ((i, j), v) items -> In i (sseq_list ir) /\ In j (sseq_list jr)) ->
  dict2_fill ir jr d items = Ok (d ++ items).
Proof.
  intros Wi Wj. induction items as [|((i, j), v) items IH]; intros d ND H; cbn [dict2_fill].
  - now rewrite app_nil_r.
  - destruct (H i j v (or_introl eq_refl)) as (Hi & Hj).
    apply sseq_mem_spec in Hi; auto. apply sseq_mem_spec in Hj; auto. rewrite Hi, Hj. cbn [negb].
    rewrite od_set_new.
    + rewrite IH.
      * now rewrite <- app_assoc.
      * now rewrite <- app_assoc.
      * intros. apply (H i0 j0 v0). now right.
    + apply pair_eqb_spec.
    + rewrite map_app in ND. cbn in ND. apply NoDup_remove_2 in ND.
      rewrite in_app_iff in ND. tauto.
Qed.

Lemma make_dict_spec items : items <> [] -> NoDup (map fst items) ->
  exists c, make_dictionary_catalog_2d items = Ok c /\ holds2 c items.
Proof.
  intros Hne ND. unfold make_dictionary_catalog_2d.
  pose proof (sort_by_perm key12_leb items) as P.
  set (l := sort_by key12_leb items) in *.
  assert (Hl : l <> []) by (intros F; rewrite F in P; apply Permutation_nil in P; auto).
  destruct (msds_asc (map (fun p => fst (fst p)) l)) as (ir & Ei & Wi & Ii & Si).
  { destruct l; cbn; congruence. }
  destruct (msds_asc (map (fun p => snd (fst p)) l)) as (jr & Ej & Wj & Ij & Sj).
  { destruct l; cbn; congruence. }
  rewrite Ei. cbn [bind]. rewrite Ej. cbn [bind].
  assert (G : keys_grid (map fst l) (sseq_list ir) (sseq_list jr)).
  { split; intros x; rewrite map_map; [apply Ii|apply Ij]. }
  destruct (keys_grid_items l _ _ G) as (KI & KJ).
  assert (Ni : sseq_list ir <> []).
  { destruct l as [|((i, j), v) l']; [congruence|]. apply list_nonempty_in. exists i.
    apply KI. exists j, v. now left. }
  assert (Nj : sseq_list jr <> []).
  { destruct l as [|((i, j), v) l']; [congruence|]. apply list_nonempty_in. exists j.
    apply KJ. exists i, v. now left. }
  assert (ND' : NoDup (map fst l)).
  { eapply Permutation_NoDup; [|exact ND]. symmetry. now apply Permutation_map. }
  unfold dictionary_catalog_2d, catalog2d_init. rewrite !sseq_sorted_init by auto. cbn [bind negb].
  rewrite dict2_fill_spec; auto.
  - cbn [bind app]. eexists. split; [reflexivity|]. apply (holds2_perm _ l); auto. split.
    + cbn [cat2_get cat2_mem cat2_len cat2_iter]. apply (od_holds pair_eqb pair_eqb_spec); auto.
    + auto.
  - intros i j v H. split; [apply KI|apply KJ]; eauto.
Qed.

Lemma dup2_spec items : items <> [] ->
  exists dup, contains_duplicates_by pair_eqb (map fst (sort_by key12_leb items)) = Ok dup /\
    (dup = true <-> ~ NoDup (map fst items)).
Proof.
  intros Hne. unfold contains_duplicates_by.
  pose proof (sort_by_perm key12_leb items) as P.
  pose proof (sort_by_sorted key12_leb items key12_total key12_trans) as S.
  set (l := sort_by key12_leb items) in *.
  assert (Hl : map fst l <> []).
  { intros F. apply map_eq_nil in F. rewrite F in P. apply Permutation_nil in P. auto. }
  assert (E : pairwise (map fst l) = Ok (combine (map fst l) (tl (map fst l)))).
  { destruct (map fst l); [congruence|reflexivity]. }
  rewrite E. cbn [bind]. eexists. split; [reflexivity|].
  assert (Pk : NoDup (map fst items) <-> NoDup (map fst l)).
  { split; intros N; (eapply Permutation_NoDup; [|exact N]); apply Permutation_map; auto. now symmetry. }
  rewrite Pk. clear E Hl.
  rewrite existsb_exists.
  apply (proj1 (StronglySorted_map fst (fun a b => pair_leb a b = true) l)) in S.
  set (ks := map fst l) in *. clearbody ks. clear -S.
  split.
  - intros ((p, q) & H & E). cbn in E. apply pair_eqb_spec in E. subst q. intros N.
    apply combine_tl_nth in H. destruct H as (i & H1 & H2).
    rewrite NoDup_nth_error in N. specialize (N i (Datatypes.S i)).
    assert (Hl : (i < length ks)%nat) by (apply nth_error_Some; congruence).
    specialize (N Hl ltac:(congruence)). lia.
  - induction S as [|a ks S IH F]; intros N; [exfalso; apply N; constructor|].
    destruct ks as [|b ks]; [exfalso; apply N; repeat constructor; auto|].
    destruct (pair_eqb a b) eqn:E.
    + exists (a, b). split; [now left|exact E].
    + assert (Na : ~ In a (b :: ks)).
      { intros [->|H].
        - rewrite (proj2 (pair_eqb_spec a a) eq_refl) in E. discriminate.
        - inversion S as [|? ? S' F']; subst. rewrite Forall_forall in F, F'.
          specialize (F b (or_introl eq_refl)). specialize (F' a H).
          unfold pair_leb, pair_eqb in *. lia. }
      destruct IH as (x & Hx & Ex).
      { intros D. apply N. constructor; auto. }
      exists x. split; auto. cbn [tl combine] in *. now right.
Qed.

Lemma create_catalog_2_spec l : l <> [] -> NoDup (map fst l) ->
  exists c, fst (create_catalog_2 l) = Ok c /\ holds2 c l.
Proof.
  intros Hl ND. unfold create_catalog_2.
  destruct (make_last_spec l Hl ND) as (o1 & -> & H1).
  assert (T : forall c, cat2_len c <> 0 -> truthy (Some c) = true) by (intros; cbn; lia).
  destruct o1 as [c|].
  - destruct H1 as (H1 & N1). cbn beta iota. rewrite T by auto. exists c. auto.
  - set (l1 := sort_by key12_leb l). pose proof (sort_by_perm key12_leb l) as P1. fold l1 in P1.
    assert (Hl1 : l1 <> []) by (intros F; rewrite F in P1; apply Permutation_nil in P1; auto).
    assert (ND1 : NoDup (map fst l1)).
    { eapply Permutation_NoDup; [|exact ND]. symmetry. now apply Permutation_map. }
    destruct (make_first_spec l1 Hl1 ND1) as (o2 & -> & H2).
    cbn beta iota. destruct o2 as [c|].
    + destruct H2 as (H2 & N2). cbn beta iota. rewrite T by auto. exists c. split; auto. eapply holds2_perm; eauto.
    + set (l2 := sort_by key21_leb l1). pose proof (sort_by_perm key21_leb l1) as P2. fold l2 in P2.
      assert (Hl2 : l2 <> []) by (intros F; rewrite F in P2; apply Permutation_nil in P2; auto).
      assert (ND2 : NoDup (map fst l2)).
      { eapply Permutation_NoDup; [|exact ND1]. symmetry. now apply Permutation_map. }
      destruct (make_dict_spec l2 Hl2 ND2) as (c & -> & H3). cbn [fst].
      exists c. split; auto. eapply holds2_perm; [|exact H3]. now rewrite P2.
Qed.

Lemma create2_holds items : items <> [] -> NoDup (map fst items) ->
  exists c, fst (create2 items) = Ok (Some c) /\ holds2 c items.
Proof.
  intros Hne ND. unfold create2. destruct (dup2_spec items Hne) as (dup & -> & Hd).
  assert (dup = false) as -> by (destruct dup; auto; exfalso; now apply Hd).
  pose proof (sort_by_perm key12_leb items) as P. set (l := sort_by key12_leb items) in *.
  assert (Hl : l <> []) by (intros F; rewrite F in P; apply Permutation_nil in P; auto).
  assert (ND' : NoDup (map fst l)).
  { eapply Permutation_NoDup; [|exact ND]. symmetry. now apply Permutation_map. }
  destruct (create_catalog_2_spec l Hl ND') as (c & E & H).
  destruct (create_catalog_2 l) as (r, l'). cbn [fst] in *. subst r. cbn.
  exists c. split; auto. eapply holds2_perm; eauto.
Qed.

Lemma create2_none items : items <> [] ->
  fst (create2 items) = Ok None <-> ~ NoDup (map fst items).
Proof.
  intros Hne. unfold create2. destruct (dup2_spec items Hne) as (dup & -> & Hd).
  destruct dup.
  - split; intros _; [now apply Hd|reflexivity].
  - destruct (create_catalog_2 (sort_by key12_leb items)) as (r, l'). split.
    + destruct r; cbn; discriminate.
    + intros N. apply Hd in N. discriminate.
Qed.

Lemma create2_state items : Permutation (snd (create2 items)) items.
Proof.
  unfold create2. pose proof (sort_by_perm key12_leb items) as P.
  set (l := sort_by key12_leb items) in *.
  destruct (contains_duplicates_by pair_eqb (map fst l)) as [[|]|e]; auto.
  unfold create_catalog_2.
  assert (P1 : Permutation (sort_by key12_leb l) items) by now rewrite sort_by_perm.
  assert (P2 : Permutation (sort_by key21_leb (sort_by key12_leb l)) items) by now rewrite sort_by_perm.
  assert (P3 : Permutation (sort_by key12_leb (sort_by key21_leb (sort_by key12_leb l))) items)
    by now rewrite sort_by_perm.
  set (l1 := sort_by key12_leb l) in *.
  set (l2 := sort_by key21_leb l1) in *. set (l3 := sort_by key12_leb l2) in *.
  destruct (make_last_index_varies_quickest_catalog_2d l) as [o1|e]; [|exact P1].
  destruct (make_first_index_varies_quickest_catalog_2d l1) as [o2|e];
    destruct o1 as [c1|]; try destruct (truthy (Some c1)); try exact P1; try exact P2;
    destruct o2 as [c2|]; try destruct (truthy (Some c2)); try exact P2; exact P3.
Qed.

(* --- key() --- *)

Lemma is_sorted_init_sorted s : sseq_wf s -> is_sorted_distinct_sseq s = Ok true ->
  StronglySorted Z.lt (sseq_list s).
Proof.
  destruct s as [r|l|l]; cbn [is_sorted_distinct_sseq sseq_list sseq_wf]; intros W H.
  - destruct (range_list r) as [|x t] eqn:E; [constructor|]. rewrite <- E.
    destruct (is_sorted_range_spec r false true W) as (b & Eb & Hb); [congruence|].
    apply Hb. congruence.
  - exact W.
  - destruct (rsv_list l) as [|x t] eqn:E; [constructor|].
    destruct (is_sorted_spec (fun x => x) (x :: t) false true) as (b & Eb & Hb); [congruence|].
    rewrite map_id in Hb. apply Hb. congruence.
Qed.

Lemma sseq_index_ok_nth s x i : sseq_wf s -> sseq_index s x = Ok i ->
  exists n, i = Z.of_nat n /\ (n < length (sseq_list s))%nat /\ nth n (sseq_list s) 0 = x.
Proof.
  intros W H. rewrite sseq_index_spec in H by auto. apply list_index_spec in H.
  destruct H as (H1 & H2 & _). exists (Z.to_nat i). split; [lia|].
  assert (Hl : (Z.to_nat i < length (sseq_list s))%nat) by (apply nth_error_Some; congruence).
  split; auto. now apply nth_error_nth.
Qed.

Lemma key_last ir jr vr c v : sseq_wf ir -> sseq_wf jr -> sseq_wf vr ->
  last_index_catalog ir jr vr = Ok c ->
  (forall i j, cat2_key c v = Ok (i, j) <-> cat2_get c (i, j) = Ok v) /\
  (cat2_key c v = Err ValueError <-> ~ exists k, cat2_get c k = Ok v).
Proof.
  intros Wi Wj Wv H. unfold last_index_catalog in H.
  destruct (sseq_len ir * sseq_len jr =? sseq_len vr) eqn:E; cbn [negb] in H; [|discriminate].
  assert (L : sseq_len ir * sseq_len jr = sseq_len vr) by lia.
  assert (Ec : c = C2Last ir jr vr).
  { destruct (catalog2d_init ir jr); cbn in H; congruence. }
  subst c. clear H E.
  pose proof (last_holds ir jr vr Wi Wj L) as [Hg Ha Hm Hl Hi].
  set (I := sseq_list ir) in *. set (J := sseq_list jr) in *. set (V := sseq_list vr) in *.
  assert (LL : (length I * length J = length V)%nat).
  { rewrite !sseq_len_spec in L. fold I J V in L. unfold zlen in L. lia. }
  (* a value found at index n *)
  assert (Fwd : forall n, (n < length V)%nat -> nth n V 0 = v ->
     cat2_key (C2Last ir jr vr) v =
       Ok (nth (n / length J) I 0, nth (n mod length J) J 0) /\
     cat2_get (C2Last ir jr vr) (nth (n / length J) I 0, nth (n mod length J) J 0) = Ok v).
  { intros n Hn Ev. pose proof Hn as HnV. rewrite <- LL in Hn.
    destruct (divmod_bounds _ _ _ Hn) as ((B1 & B2) & En). split.
    - cbn [cat2_key]. unfold V in Ev. rewrite <- Ev at 1. rewrite sseq_index_nth by auto.
      cbn [bind]. rewrite !sseq_len_spec. fold J. unfold py_div, py_mod, zlen.
      replace (Z.of_nat (length J) =? 0) with false by lia. cbn [bind].
      rewrite <- Nat2Z.inj_div, <- Nat2Z.inj_mod.
      rewrite !sseq_get_spec. fold I J.
      rewrite (py_get_ok I _ 0) by (clear -B1 B2; unfold zlen; split; [apply Nat2Z.is_nonneg|apply Nat2Z.inj_lt; assumption]). cbn [bind].
      rewrite (py_get_ok J _ 0) by (clear -B1 B2; unfold zlen; split; [apply Nat2Z.is_nonneg|apply Nat2Z.inj_lt; assumption]). cbn [bind].
      now rewrite !Nat2Z.id.
    - unfold I, J in *. rewrite c2last_get by auto. fold V. rewrite <- En. now rewrite Ev. }
  (* a key with that value *)
  assert (Bwd : forall i j, cat2_get (C2Last ir jr vr) (i, j) = Ok v ->
     exists n, (n < length V)%nat /\ nth n V 0 = v /\
       i = nth (n / length J) I 0 /\ j = nth (n mod length J) J 0).
  { intros i j G.
    assert (M : cat2_mem (C2Last ir jr vr) (i, j) = true).
    { cbn [cat2_get] in G. destruct (cat2_mem (C2Last ir jr vr) (i, j)); auto. discriminate. }
    cbn [cat2_mem fst snd] in M. apply andb_true_iff in M. destruct M as (Mi & Mj).
    apply sseq_mem_spec in Mi; auto. apply sseq_mem_spec in Mj; auto.
    apply In_nth with (d := 0) in Mi. destruct Mi as (a & Ha' & Ei).
    apply In_nth with (d := 0) in Mj. destruct Mj as (b & Hb' & Ej). fold I in Ha', Ei. fold J in Hb', Ej.
    rewrite <- Ei, <- Ej in G. unfold I, J in G. rewrite c2last_get in G by auto. fold I J V in G.
    exists (a * length J + b)%nat. split; [nia|]. split; [congruence|].
    rewrite Nat.div_add_l by lia. rewrite Nat.div_small, Nat.add_0_r by lia.
    rewrite Nat.add_comm, Nat.mod_add by lia. rewrite Nat.mod_small by lia. auto. }
  split.
  - intros i j. split.
    + intros Hk. pose proof Hk as Hk'. cbn [cat2_key] in Hk. apply bind_ok in Hk. destruct Hk as (n & Hn & _).
      apply sseq_index_ok_nth in Hn; auto. destruct Hn as (m & _ & Hm' & Ev). fold V in Hm', Ev.
      destruct (Fwd m Hm' Ev) as (F1 & F2). rewrite F1 in Hk'. injection Hk' as <- <-. exact F2.
    + intros G. destruct (Bwd i j G) as (n & Hn & Ev & -> & ->). now apply Fwd.
  - split.
    + intros Hk ((i, j) & G). destruct (Bwd i j G) as (n & Hn & Ev & -> & ->).
      destruct (Fwd n Hn Ev) as (F1 & _). congruence.
    + intros N. cbn [cat2_key]. destruct (sseq_index vr v) as [n|e] eqn:En.
      * exfalso. apply sseq_index_ok_nth in En; auto. destruct En as (m & _ & Hm' & Ev). fold V in Hm', Ev.
        destruct (Fwd m Hm' Ev) as (_ & F2). apply N. eauto.
      * cbn. rewrite sseq_index_spec in En by auto. apply list_index_err in En. now destruct En as (-> & _).
Qed.

Lemma key_first ir jr vr c v : sseq_wf ir -> sseq_wf jr -> sseq_wf vr ->
  first_index_catalog ir jr vr = Ok c ->
  (forall i j, cat2_key c v = Ok (i, j) <-> cat2_get c (i, j) = Ok v) /\
  (cat2_key c v = Err ValueError <-> ~ exists k, cat2_get c k = Ok v).
Proof.
  intros Wi Wj Wv H. unfold first_index_catalog in H.
  destruct (sseq_len ir * sseq_len jr =? sseq_len vr) eqn:E; cbn [negb] in H; [|discriminate].
  assert (L : sseq_len ir * sseq_len jr = sseq_len vr) by lia.
  assert (Ec : c = C2First ir jr vr).
  { destruct (catalog2d_init ir jr); cbn in H; congruence. }
  subst c. clear H E.
  set (I := sseq_list ir) in *. set (J := sseq_list jr) in *. set (V := sseq_list vr) in *.
  assert (LL : (length J * length I = length V)%nat).
  { rewrite !sseq_len_spec in L. fold I J V in L. unfold zlen in L. lia. }
  assert (Fwd : forall n, (n < length V)%nat -> nth n V 0 = v ->
     cat2_key (C2First ir jr vr) v =
       Ok (nth (n mod length I) I 0, nth (n / length I) J 0) /\
     cat2_get (C2First ir jr vr) (nth (n mod length I) I 0, nth (n / length I) J 0) = Ok v).
  { intros n Hn Ev. pose proof Hn as HnV. rewrite <- LL in Hn.
    destruct (divmod_bounds _ _ _ Hn) as ((B1 & B2) & En). split.
    - cbn [cat2_key]. unfold V in Ev. rewrite <- Ev at 1. rewrite sseq_index_nth by auto.
      cbn [bind]. rewrite !sseq_len_spec. fold I. unfold py_div, py_mod, zlen.
      replace (Z.of_nat (length I) =? 0) with false by lia. cbn [bind].
      rewrite <- Nat2Z.inj_div, <- Nat2Z.inj_mod.
      rewrite !sseq_get_spec. fold I J.
      rewrite (py_get_ok I _ 0) by (clear -B1 B2; unfold zlen; split; [apply Nat2Z.is_nonneg|apply Nat2Z.inj_lt; assumption]). cbn [bind].
      rewrite (py_get_ok J _ 0) by (clear -B1 B2; unfold zlen; split; [apply Nat2Z.is_nonneg|apply Nat2Z.inj_lt; assumption]). cbn [bind].
      now rewrite !Nat2Z.id.
    - unfold I, J in *. rewrite c2first_get by auto. fold V. rewrite <- En. now rewrite Ev. }
  assert (Bwd : forall i j, cat2_get (C2First ir jr vr) (i, j) = Ok v ->
     exists n, (n < length V)%nat /\ nth n V 0 = v /\
       i = nth (n mod length I) I 0 /\ j = nth (n / length I) J 0).
  { intros i j G.
    assert (M : cat2_mem (C2First ir jr vr) (i, j) = true).
    { cbn [cat2_get] in G. destruct (cat2_mem (C2First ir jr vr) (i, j)); auto. discriminate. }
    cbn [cat2_mem fst snd] in M. apply andb_true_iff in M. destruct M as (Mi & Mj).
    apply sseq_mem_spec in Mi; auto. apply sseq_mem_spec in Mj; auto.
    apply In_nth with (d := 0) in Mi. destruct Mi as (a & Ha' & Ei).
    apply In_nth with (d := 0) in Mj. destruct Mj as (b & Hb' & Ej). fold I in Ha', Ei. fold J in Hb', Ej.
    rewrite <- Ei, <- Ej in G. unfold I, J in G. rewrite c2first_get in G by auto. fold I J V in G.
    exists (b * length I + a)%nat. split; [nia|]. split; [congruence|].
    rewrite Nat.div_add_l by lia. rewrite Nat.div_small, Nat.add_0_r by lia.
    rewrite Nat.add_comm, Nat.mod_add by lia. rewrite Nat.mod_small by lia. auto. }
  split.
  - intros i j. split.
    + intros Hk. pose proof Hk as Hk'. cbn [cat2_key] in Hk. apply bind_ok in Hk. destruct Hk as (n & Hn & _).
      apply sseq_index_ok_nth in Hn; auto. destruct Hn as (m & _ & Hm' & Ev). fold V in Hm', Ev.
      destruct (Fwd m Hm' Ev) as (F1 & F2). rewrite F1 in Hk'. injection Hk' as <- <-. exact F2.
    + intros G. destruct (Bwd i j G) as (n & Hn & Ev & -> & ->). now apply Fwd.
  - split.
    + intros Hk ((i, j) & G). destruct (Bwd i j G) as (n & Hn & Ev & -> & ->).
      destruct (Fwd n Hn Ev) as (F1 & _). congruence.
    + intros N. cbn [cat2_key]. destruct (sseq_index vr v) as [n|e] eqn:En.
      * exfalso. apply sseq_index_ok_nth in En; auto. destruct En as (m & _ & Hm' & Ev). fold V in Hm', Ev.
        destruct (Fwd m Hm' Ev) as (_ & F2). apply N. eauto.
      * cbn. rewrite sseq_index_spec in En by auto. apply list_index_err in En. now destruct En as (-> & _).
Qed.

(* --- constructors --- *)

Lemma mod_divide a d : d <> 0 -> a mod d = 0 <-> (d | a).
Proof. intros H. apply Z.mod_divide. exact H. Qed.

Lemma range_keys kmin kmax d : 0 < d -> kmin <= kmax -> (d | kmax - kmin) ->
  zlen (range_list (mk_range kmin (kmax + 1) d)) = 1 + (kmax - kmin) / d /\
  NoDup (range_list (mk_range kmin (kmax + 1) d)) /\
  (forall k, ((kmin <=? k) && (k <=? kmax)) && ((k - kmin) mod d =? 0) = true <->
             In k (range_list (mk_range kmin (kmax + 1) d))) /\
  (forall k, In k (range_list (mk_range kmin (kmax + 1) d)) <->
             exists n, 0 <= n <= (kmax - kmin) / d /\ k = kmin + n * d).
Proof.
  intros Hd Hk (q & Hq). set (r := mk_range kmin (kmax + 1) d).
  assert (W : range_ok r) by (unfold range_ok, r; cbn; lia).
  assert (Eq : (kmax - kmin) / d = q) by (rewrite Hq; apply Z.div_mul; lia).
  assert (Hq0 : 0 <= q) by nia.
  assert (Hlen : range_len r = 1 + q).
  { unfold range_len, r; cbn [r_start r_stop r_step].
    replace (0 <? d) with true by lia. replace (kmin <? kmax + 1) with true by lia.
    replace (kmax + 1 - 1 - kmin) with (q * d) by lia. rewrite Z.div_mul by lia. lia. }
  assert (Hin : forall k, In k (range_list r) <-> exists n, 0 <= n <= q /\ k = kmin + n * d).
  { intros k. rewrite range_list_In by auto. rewrite Hlen. cbn [r_start r_step r].
    split; intros (n & H1 & H2); exists n; split; auto; lia. }
  rewrite Eq. repeat split.
  - rewrite range_list_length, Hlen. reflexivity.
  - pose proof (range_sorted r W) as S. cbn [r_step r] in S.
    replace (0 <? d) with true in S by lia. now apply StronglySorted_NoDup.
  - intros H. apply Hin.
    assert (H1 : kmin <= k <= kmax /\ (k - kmin) mod d = 0) by lia. destruct H1 as (H1 & H2).
    apply mod_divide in H2; [|lia]. destruct H2 as (n & Hn). exists n. nia.
  - intros H. apply Hin in H. destruct H as (n & Hn & ->).
    replace (kmin + n * d - kmin) with (n * d) by lia. rewrite Z.mod_mul by lia. nia.
  - intros H. apply Hin in H. exact H.
  - intros H. apply Hin. exact H.
Qed.

Lemma regular_constant_spec kmin kmax d v : 0 < d ->
  (kmin <= kmax /\ (d | kmax - kmin) ->
   exists c, regular_constant_catalog kmin kmax d v = Ok c /\
     self_consistent (cat1_get c) (cat1_mem c) (cat1_len c) (cat1_iter c) /\
     (forall k, In k (cat1_iter c) <-> kmin <= k <= kmax /\ (d | k - kmin)) /\
     (forall k, In k (cat1_iter c) -> cat1_get c k = Ok v)) /\
  (~ (kmin <= kmax /\ (d | kmax - kmin)) ->
   regular_constant_catalog kmin kmax d v = Err ValueError).
Proof.
  intros Hd. unfold regular_constant_catalog, py_mod. replace (d =? 0) with false by lia. split.
  - intros (Hk & Hdiv). replace (kmax <? kmin) with false by lia. cbn [bind].
    pose proof (proj2 (mod_divide (kmax - kmin) d ltac:(lia)) Hdiv) as Hm. rewrite Hm. cbn [Z.eqb negb].
    destruct (range_keys kmin kmax d Hd Hk Hdiv) as (R1 & R2 & R3 & R4).
    eexists. split; [reflexivity|].
    assert (G : forall k, In k (cat1_iter (CRegConst kmin kmax d v)) ->
                cat1_get (CRegConst kmin kmax d v) k = Ok v).
    { intros k H. cbn [cat1_get]. apply R3 in H. cbn [cat1_mem]. now rewrite H. }
    split; [|split; auto].
    + constructor; auto.
      * intros k H. eauto.
      * intros k H. cbn [cat1_get]. destruct (cat1_mem _ k) eqn:M; auto.
        exfalso. apply H. now apply R3.
    + intros k. cbn [cat1_iter]. rewrite <- R3. rewrite andb_true_iff, <- mod_divide by lia. lia.
  - intros N. destruct (kmax <? kmin) eqn:E; auto. cbn [bind].
    destruct ((kmax - kmin) mod d =? 0) eqn:M; auto. exfalso. apply N. split; [lia|].
    apply mod_divide; lia.
Qed.

Lemma regular_spec kmin kmax d vs : 0 < d ->
  (kmin <= kmax /\ (d | kmax - kmin) /\ kmin + (zlen vs - 1) * d = kmax ->
   exists c, regular_catalog kmin kmax d vs = Ok c /\
     self_consistent (cat1_get c) (cat1_mem c) (cat1_len c) (cat1_iter c) /\
     (forall k, In k (cat1_iter c) <-> kmin <= k <= kmax /\ (d | k - kmin)) /\
     (forall n v, nth_error vs n = Some v -> cat1_get c (kmin + Z.of_nat n * d) = Ok v)) /\
  (~ (kmin <= kmax /\ (d | kmax - kmin) /\ kmin + (zlen vs - 1) * d = kmax) ->
   regular_catalog kmin kmax d vs = Err ValueError).
Proof.
  intros Hd. unfold regular_catalog, py_mod. replace (d =? 0) with false by lia. split.
  - intros (Hk & Hdiv & Hn). replace (kmax <? kmin) with false by lia. cbn [bind].
    pose proof (proj2 (mod_divide (kmax - kmin) d ltac:(lia)) Hdiv) as Hm. rewrite Hm. cbn [Z.eqb negb].
    assert (Ed : (kmax - kmin) / d = zlen vs - 1).
    { replace (kmax - kmin) with ((zlen vs - 1) * d) by lia. apply Z.div_mul. lia. }
    rewrite Ed. replace (1 + (zlen vs - 1) =? zlen vs) with true by lia. cbn [negb].
    destruct (range_keys kmin kmax d Hd Hk Hdiv) as (R1 & R2 & R3 & R4).
    rewrite Ed in R1, R4.
    eexists. split; [reflexivity|].
    assert (G : forall n v, nth_error vs n = Some v ->
                cat1_get (CRegular kmin kmax d vs) (kmin + Z.of_nat n * d) = Ok v).
    { intros n v H. assert (Hl : (n < length vs)%nat) by (apply nth_error_Some; congruence).
      assert (M : ((kmin <=? kmin + Z.of_nat n * d) && (kmin + Z.of_nat n * d <=? kmax)) &&
                  ((kmin + Z.of_nat n * d - kmin) mod d =? 0) = true).
      { apply R3. apply R4. exists (Z.of_nat n). unfold zlen. split; lia. }
      apply andb_true_iff in M. destruct M as (M1 & M2). cbn [cat1_get]. rewrite M1, M2. cbn [negb].
      replace (kmin + Z.of_nat n * d - kmin) with (Z.of_nat n * d) by lia.
      rewrite Z.div_mul by lia. rewrite (py_get_ok vs _ v) by (unfold zlen; lia).
      f_equal. rewrite Nat2Z.id. now apply nth_error_nth. }
    split; [|split; auto].
    + constructor; auto.
      * cbn [cat1_len cat1_iter]. lia.
      * intros k H. cbn [cat1_iter] in H. apply R4 in H. destruct H as (n & Hn1 & ->).
        destruct (nth_error vs (Z.to_nat n)) as [v|] eqn:E.
        -- exists v. rewrite <- (Z2Nat.id n) by lia. now apply G.
        -- exfalso. apply nth_error_None in E. unfold zlen in Hn1. lia.
      * intros k H. cbn [cat1_get]. cbn [cat1_iter] in H.
        destruct ((kmin <=? k) && (k <=? kmax)) eqn:M1; auto. cbn [negb].
        destruct ((k - kmin) mod d =? 0) eqn:M2; auto.
        exfalso. apply H. apply R3. now rewrite M1, M2.
    + intros k. cbn [cat1_iter]. rewrite <- R3. rewrite andb_true_iff, <- mod_divide by lia. lia.
  - intros N. destruct (kmax <? kmin) eqn:E; auto. cbn [bind].
    destruct ((kmax - kmin) mod d =? 0) eqn:M; auto. cbn [negb].
    assert (Hdiv : (d | kmax - kmin)) by (apply mod_divide; lia).
    destruct (1 + (kmax - kmin) / d =? zlen vs) eqn:L; auto.
    exfalso. apply N. split; [lia|]. split; auto. destruct Hdiv as (q & Hq).
    rewrite Hq, Z.div_mul in L by lia. nia.
Qed.

Lemma linear_spec kmin kmax d vstart vstop e :
  (kmin < kmax /\ 0 < d /\ e <> 0 /\
   (exists n, kmax = kmin + n * d /\ vstop = vstart + n * e) ->
   exists c, linear_regular_catalog kmin kmax d vstart vstop e = Ok c /\
     self_consistent (cat1_get c) (cat1_mem c) (cat1_len c) (cat1_iter c) /\
     (forall k, In k (cat1_iter c) <-> kmin <= k <= kmax /\ (d | k - kmin)) /\
     (forall n, kmin <= kmin + n * d <= kmax -> cat1_get c (kmin + n * d) = Ok (vstart + n * e))) /\
  (~ (kmin < kmax /\ 0 < d /\ e <> 0 /\
      exists n, kmax = kmin + n * d /\ vstop = vstart + n * e) ->
   linear_regular_catalog kmin kmax d vstart vstop e = Err ValueError).
Proof.
  unfold linear_regular_catalog. split.
  - intros (Hk & Hd & He & N & Ek & Ev). replace (kmax <=? kmin) with false by lia.
    replace (d <=? 0) with false by lia. replace (e =? 0) with false by lia.
    assert (E1 : kmax - kmin = N * d) by lia. assert (E2 : vstop - vstart = N * e) by lia.
    rewrite E1, E2, !Z.mod_mul, !Z.div_mul by lia. cbn [Z.eqb negb].
    rewrite Z.eqb_refl. cbn [negb].
    assert (Hdiv : (d | kmax - kmin)) by (exists N; lia).
    destruct (range_keys kmin kmax d Hd ltac:(lia) Hdiv) as (R1 & R2 & R3 & R4).
    assert (EN : (kmax - kmin) / d = N) by (rewrite E1; apply Z.div_mul; lia).
    eexists. split; [reflexivity|].
    assert (G : forall n, kmin <= kmin + n * d <= kmax ->
              cat1_get (CLinear kmin kmax d vstart vstop e) (kmin + n * d) = Ok (vstart + n * e)).
    { intros n Hn. cbn [cat1_get].
      replace ((kmin <=? kmin + n * d) && (kmin + n * d <=? kmax)) with true by lia.
      replace (kmin + n * d - kmin) with (n * d) by lia. rewrite Z.mod_mul by lia. cbn [negb Z.eqb].
      rewrite E2. replace (N * e * (n * d)) with ((n * e) * (kmax - kmin)) by (rewrite E1; ring).
      rewrite Z.mod_mul, Z.div_mul by lia. cbn [Z.eqb]. f_equal. lia. }
    split; [|split; auto].
    + constructor; auto.
      * intros k H. cbn [cat1_iter] in H. apply R4 in H. destruct H as (n & Hn1 & ->).
        exists (vstart + n * e). apply G. rewrite EN in Hn1. nia.
      * intros k H. cbn [cat1_get]. cbn [cat1_iter] in H.
        destruct ((kmin <=? k) && (k <=? kmax)) eqn:M1; auto. cbn [negb].
        destruct ((k - kmin) mod d =? 0) eqn:M2; auto.
        exfalso. apply H. apply R3. now rewrite M1, M2.
    + intros k. cbn [cat1_iter]. rewrite <- R3. rewrite andb_true_iff, <- mod_divide by lia. lia.
  - intros N. destruct (kmax <=? kmin) eqn:E1; auto. destruct (d <=? 0) eqn:E2; auto.
    destruct ((kmax - kmin) mod d =? 0) eqn:E3; auto. cbn [negb].
    destruct (e =? 0) eqn:E4; auto.
    destruct ((vstop - vstart) mod e =? 0) eqn:E5; auto. cbn [negb].
    destruct (1 + (kmax - kmin) / d =? 1 + (vstop - vstart) / e) eqn:E6; auto.
    exfalso. apply N. split; [lia|]. split; [lia|]. split; [lia|].
    exists ((kmax - kmin) / d).
    pose proof (Z.div_mod (kmax - kmin) d ltac:(lia)) as D1.
    pose proof (Z.div_mod (vstop - vstart) e ltac:(lia)) as D2.
    assert ((kmax - kmin) mod d = 0) as M1 by lia. assert ((vstop - vstart) mod e = 0) as M2 by lia.
    rewrite M1 in D1. rewrite M2 in D2.
    assert (Q : (kmax - kmin) / d = (vstop - vstart) / e) by lia. split; [lia|]. rewrite Q. lia.
Qed.

Lemma holds_self_consistent {K} get mem len iter (items : list (K * Z)) :
  NoDup (map fst items) -> holds_exactly get mem len iter items -> self_consistent get mem len iter.
Proof.
  intros N [H1 H2 H3 H4 H5]. constructor.
  - rewrite H4. unfold zlen. rewrite (Permutation_length H5). now rewrite map_length.
  - eapply Permutation_NoDup; [symmetry|]; eauto.
  - intros k Hk. apply (Permutation_in _ H5) in Hk. apply in_map_iff in Hk.
    destruct Hk as ((k', v) & E & Hk). cbn in E. subst. eauto.
  - intros k Hk. apply H2. intros F. apply Hk. eapply Permutation_in; [symmetry|]; eauto.
  - intros k. rewrite H3. split; apply Permutation_in; auto. now symmetry.
Qed.

Lemma sorted_init_iff s : sseq_wf s -> sseq_list s <> [] ->
  exists b, is_sorted_distinct_sseq s = Ok b /\ (b = true <-> StronglySorted Z.lt (sseq_list s)).
Proof.
  intros W N. destruct s as [r|l|l]; cbn [is_sorted_distinct_sseq sseq_list sseq_wf] in *.
  - exact (is_sorted_range_spec r false true W N).
  - exists true. split; auto. tauto.
  - destruct (is_sorted_spec (fun x => x) (rsv_list l) false true N) as (b & E & H).
    rewrite map_id in H. eauto.
Qed.

Lemma catalog2d_init_spec ir jr : sseq_wf ir -> sseq_wf jr -> sseq_list ir <> [] -> sseq_list jr <> [] ->
  (catalog2d_init ir jr = Ok tt /\ StronglySorted Z.lt (sseq_list ir) /\ StronglySorted Z.lt (sseq_list jr)) \/
  (catalog2d_init ir jr = Err ValueError /\
   ~ (StronglySorted Z.lt (sseq_list ir) /\ StronglySorted Z.lt (sseq_list jr))).
Proof.
  intros Wi Wj Ni Nj. unfold catalog2d_init.
  destruct (sorted_init_iff ir Wi Ni) as (bi & -> & Hi). cbn [bind].
  destruct (sorted_init_iff jr Wj Nj) as (bj & -> & Hj).
  destruct bi; cbn [negb bind].
  - destruct bj; cbn [negb].
    + left. split; auto. split; [now apply Hi|now apply Hj].
    + right. split; auto. intros (_ & H). apply Hj in H. discriminate.
  - right. split; auto. intros (H & _). apply Hi in H. discriminate.
Qed.

Lemma nodup_list_prod' {A} (I J : list A) : NoDup I -> NoDup J -> NoDup (list_prod I J).
Proof.
  intros NI NJ. induction NI as [|i I Hi NI IH]; cbn; [constructor|].
  assert (App : forall (l m : list (A * A)), NoDup l -> NoDup m -> (forall x, In x l -> ~ In x m) -> NoDup (l ++ m)).
  { induction 1 as [|a l Ha Nl IHl]; cbn; intros Nm D; auto. constructor.
    - rewrite in_app_iff. intros [H|H]; [auto|]. apply (D a); cbn; auto.
    - apply IHl; auto. }
  apply App; auto.
  - apply FinFun.Injective_map_NoDup; auto. intros x y E. congruence.
  - intros (a, b) H F. apply in_map_iff in H. destruct H as (y & E & _). injection E as -> ->.
    apply in_prod_iff in F. tauto.
Qed.

Lemma grid_catalogs_spec ir jr vr : sseq_wf ir -> sseq_wf jr -> sseq_wf vr ->
  sseq_list ir <> [] -> sseq_list jr <> [] ->
  let ok := zlen (sseq_list ir) * zlen (sseq_list jr) = zlen (sseq_list vr) /\
            StronglySorted Z.lt (sseq_list ir) /\ StronglySorted Z.lt (sseq_list jr) in
  (ok -> exists c d,
     last_index_catalog ir jr vr = Ok c /\ first_index_catalog ir jr vr = Ok d /\
     self_consistent (cat2_get c) (cat2_mem c) (cat2_len c) (cat2_iter c) /\
     self_consistent (cat2_get d) (cat2_mem d) (cat2_len d) (cat2_iter d) /\
     (forall m n i j, nth_error (sseq_list ir) m = Some i -> nth_error (sseq_list jr) n = Some j ->
        cat2_get c (i, j) = Ok (nth (m * length (sseq_list jr) + n) (sseq_list vr) 0) /\
        cat2_get d (i, j) = Ok (nth (n * length (sseq_list ir) + m) (sseq_list vr) 0))) /\
  (~ ok -> last_index_catalog ir jr vr = Err ValueError /\ first_index_catalog ir jr vr = Err ValueError).
Proof.
  intros Wi Wj Wv Ni Nj ok. unfold last_index_catalog, first_index_catalog. rewrite !sseq_len_spec.
  destruct (catalog2d_init_spec ir jr Wi Wj Ni Nj) as [(Ei & Si & Sj)|(Ei & NS)]; rewrite Ei.
  - destruct (zlen (sseq_list ir) * zlen (sseq_list jr) =? zlen (sseq_list vr)) eqn:E; cbn [negb bind].
    + split; [|intros N; exfalso; apply N; split; auto; lia]. intros _.
      assert (L : sseq_len ir * sseq_len jr = sseq_len vr) by (rewrite !sseq_len_spec; lia).
      eexists _, _. split; [reflexivity|]. split; [reflexivity|].
      pose proof (last_holds ir jr vr Wi Wj L) as HL. pose proof (first_holds ir jr vr Wi Wj L) as HF.
      assert (LL : length (list_prod (sseq_list ir) (sseq_list jr)) = length (sseq_list vr)).
      { rewrite prod_length. unfold zlen in E. lia. }
      split; [|split].
      * eapply holds_self_consistent; [|exact HL]. rewrite combine_map_fst by auto.
        apply nodup_list_prod'; now apply StronglySorted_NoDup.
      * eapply holds_self_consistent; [|exact HF]. rewrite combine_map_fst.
        -- apply FinFun.Injective_map_NoDup.
           ++ intros p q Eq. rewrite <- (swap_swap p), <- (swap_swap q). now rewrite Eq.
           ++ apply nodup_list_prod'; now apply StronglySorted_NoDup.
        -- rewrite map_length, prod_length. rewrite <- LL, prod_length. lia.
      * intros m n i j Hm Hn.
        assert (Lm : (m < length (sseq_list ir))%nat) by (apply nth_error_Some; congruence).
        assert (Ln : (n < length (sseq_list jr))%nat) by (apply nth_error_Some; congruence).
        apply nth_error_nth with (d := 0) in Hm. apply nth_error_nth with (d := 0) in Hn. subst.
        split; [now apply c2last_get|now apply c2first_get].
    + split; [intros (H & _); lia|auto].
  - split; [intros (_ & H); tauto|]. intros _.
    destruct (zlen (sseq_list ir) * zlen (sseq_list jr) =? zlen (sseq_list vr)); auto.
Qed.

Lemma dict2_fill_err ir jr : sseq_wf ir -> sseq_wf jr -> forall items d,
  ~ (forall i j v, In ((i, j), v) items -> In i (sseq_list ir) /\ In j (sseq_list jr)) ->
  dict2_fill ir jr d items = Err ValueError.
Proof.
  intros Wi Wj. induction items as [|((i, j), v) items IH]; intros d H; cbn [dict2_fill].
  - exfalso. apply H. intros ? ? ? [].
  - destruct (sseq_mem ir i) eqn:Ei; auto. cbn [negb].
    destruct (sseq_mem jr j) eqn:Ej; auto. cbn [negb]. apply IH. intros F. apply H.
    intros i' j' v' [E|E]; [|eauto]. injection E as -> -> ->.
    split; apply sseq_mem_spec; auto.
Qed.

Lemma dict2_spec ir jr items : sseq_wf ir -> sseq_wf jr ->
  sseq_list ir <> [] -> sseq_list jr <> [] -> NoDup (map fst items) ->
  let ok := (StronglySorted Z.lt (sseq_list ir) /\ StronglySorted Z.lt (sseq_list jr)) /\
            (forall i j v, In ((i, j), v) items -> In i (sseq_list ir) /\ In j (sseq_list jr)) in
  (ok -> exists c, dictionary_catalog_2d ir jr items = Ok c /\
     holds_exactly (cat2_get c) (cat2_mem c) (cat2_len c) (cat2_iter c) items) /\
  (~ ok -> dictionary_catalog_2d ir jr items = Err ValueError).
Proof.
  intros Wi Wj Ni Nj ND ok. unfold dictionary_catalog_2d.
  destruct (catalog2d_init_spec ir jr Wi Wj Ni Nj) as [(Ei & Si & Sj)|(Ei & NS)]; rewrite Ei; cbn [bind].
  - split.
    + intros (_ & H). rewrite dict2_fill_spec by auto. cbn [bind app].
      eexists. split; [reflexivity|]. cbn [cat2_get cat2_mem cat2_len cat2_iter].
      now apply (od_holds pair_eqb pair_eqb_spec).
    + intros N. rewrite dict2_fill_err; auto. intros F. apply N. split; auto.
  - split; [intros (H & _); tauto|auto].
Qed.

(* stride zero is not reported as ValueError, and a negative stride is accepted *)
Lemma regular_stride_refuted :
  regular_constant_catalog 0 10 0 7 = Err ZeroDivisionError /\
  (exists c, regular_constant_catalog 0 10 (-5) 7 = Ok c /\ cat1_len c < 0).
Proof. split; [reflexivity|]. eexists. split; [reflexivity|]. vm_compute. reflexivity. Qed.

(* --- dictionaries of items with repeated keys --- *)

Section OdRepeat.
Context {K : Type} (keqb : K -> K -> bool).
Hypothesis keqb_eq : forall a b, keqb a b = true <-> a = b.

Lemma od_set_fst (d : list (K * Z)) k v x :
  In x (map fst (od_set keqb d k v)) <-> x = k \/ In x (map fst d).
Proof.
  induction d as [|(k', v') d IH]; cbn; [intuition congruence|].
  destruct (keqb k k') eqn:E; cbn.
  - apply keqb_eq in E. subst. intuition congruence.
  - rewrite IH. intuition.
Qed.

Lemma od_set_nodup (d : list (K * Z)) k v : NoDup (map fst d) -> NoDup (map fst (od_set keqb d k v)).
Proof.
  induction d as [|(k', v') d IH]; cbn; intros N; [repeat constructor; auto|].
  inversion N as [|? ? N1 N2]; subst. destruct (keqb k k') eqn:E; cbn; [exact N|].
  constructor; [|auto]. rewrite od_set_fst. intros [->|I]; [|auto].
  rewrite (proj2 (keqb_eq k k) eq_refl) in E. discriminate.
Qed.

Lemma od_set_In (d : list (K * Z)) k v x y : NoDup (map fst d) ->
  In (x, y) (od_set keqb d k v) <-> (x = k /\ y = v) \/ (x <> k /\ In (x, y) d).
Proof.
  induction d as [|(k', v') d IH]; cbn; intros N.
  - split; [intros [[= -> ->]|[]]; auto|intros [(-> & ->)|(_ & [])]; auto].
  - inversion N as [|? ? N1 N2]; subst. destruct (keqb k k') eqn:E; cbn.
    + apply keqb_eq in E. subst k'. split.
      * intros [[= -> ->]|I]; [auto|]. right. split; [|auto]. intros ->. apply N1.
        change k with (fst (k, y)). apply in_map, I.
      * intros [(-> & ->)|(Nx & [[= -> ->]|I])]; auto. congruence.
    + rewrite (IH N2). split.
      * intros [[= -> ->]|[(-> & ->)|(Nx & I)]]; auto. right. split; auto.
        intros ->. rewrite (proj2 (keqb_eq k k) eq_refl) in E. discriminate.
      * intros [(-> & ->)|(Nx & [[= -> ->]|I])]; auto.
Qed.

Lemma last_value_snoc (items : list (K * Z)) k v x y :
  last_value (items ++ [(k, v)]) x y <-> (x = k /\ y = v) \/ (x <> k /\ last_value items x y).
Proof.
  split.
  - intros (b & a & E & N). destruct a as [|p a _] using rev_ind.
    + apply app_inj_tail in E. destruct E as (_ & [= -> ->]). auto.
    + rewrite app_comm_cons, app_assoc in E. apply app_inj_tail in E. destruct E as (E & <-).
      rewrite map_app, in_app_iff in N. cbn in N. right. split; [intros ->; tauto|].
      exists b, a. split; [exact E|tauto].
  - intros [(-> & ->)|(Nx & b & a & -> & N)].
    + exists items, []. split; auto.
    + exists b, (a ++ [(k, v)]). split; [now rewrite <- app_assoc|].
      rewrite map_app, in_app_iff. cbn. intuition congruence.
Qed.

Lemma od_of_last (items : list (K * Z)) :
  NoDup (map fst (od_of keqb items)) /\
  forall x y, In (x, y) (od_of keqb items) <-> last_value items x y.
Proof.
  induction items as [|(k, v) items (N & I)] using rev_ind.
  - cbn. split; [constructor|]. intros x y. split; [intros []|].
    intros (b & a & E & _). destruct b; discriminate.
  - unfold od_of in *. rewrite fold_left_app. cbn [fold_left fst snd]. split.
    + now apply od_set_nodup.
    + intros x y. rewrite od_set_In by exact N. rewrite last_value_snoc, I. reflexivity.
Qed.

Lemma od_of_holds (items : list (K * Z)) : exists d,
  holds_exactly (od_get keqb (od_of keqb items)) (od_mem keqb (od_of keqb items))
    (zlen (od_of keqb items)) (map fst (od_of keqb items)) d /\
  forall k v, In (k, v) d <-> last_value items k v.
Proof.
  destruct (od_of_last items) as (N & I). exists (od_of keqb items). split; [|exact I].
  now apply od_holds.
Qed.
End OdRepeat.

Lemma dict2_fill_od ir jr : sseq_wf ir -> sseq_wf jr -> forall items d,
  (forall i j v, In ((i, j), v) items -> In i (sseq_list ir) /\ In j (sseq_list jr)) ->
  dict2_fill ir jr d items = Ok (fold_left (fun d p => od_set pair_eqb d (fst p) (snd p)) items d).
Proof.
  intros Wi Wj. induction items as [|((i, j), v) items IH]; intros d H; [reflexivity|].
  cbn [dict2_fill fold_left fst snd].
  destruct (H i j v (or_introl eq_refl)) as (Hi & Hj).
  apply sseq_mem_spec in Hi; auto. apply sseq_mem_spec in Hj; auto. rewrite Hi, Hj. cbn [negb].
  apply IH. intros. apply (H i0 j0 v0). now right.
Qed.

Lemma dict1_repeats items : exists d,
  let c := dictionary_catalog items in
  holds_exactly (cat1_get c) (cat1_mem c) (cat1_len c) (cat1_iter c) d /\
  forall k v, In (k, v) d <-> last_value items k v.
Proof. exact (od_of_holds Z.eqb Z.eqb_eq items). Qed.

Lemma dict2_repeats ir jr items : sseq_wf ir -> sseq_wf jr ->
  StronglySorted Z.lt (sseq_list ir) -> StronglySorted Z.lt (sseq_list jr) ->
  sseq_list ir <> [] -> sseq_list jr <> [] ->
  (forall i j v, In ((i, j), v) items -> In i (sseq_list ir) /\ In j (sseq_list jr)) ->
  exists c d, dictionary_catalog_2d ir jr items = Ok c /\
    holds_exactly (cat2_get c) (cat2_mem c) (cat2_len c) (cat2_iter c) d /\
    forall k v, In (k, v) d <-> last_value items k v.
Proof.
  intros Wi Wj Si Sj Ni Nj H. unfold dictionary_catalog_2d.
  destruct (catalog2d_init_spec ir jr Wi Wj Ni Nj) as [(Ei & _)|(_ & NS)]; [|tauto].
  rewrite Ei. cbn [bind]. rewrite dict2_fill_od by auto. cbn [bind].
  destruct (od_of_holds pair_eqb pair_eqb_spec items) as (d & Hd & Id).
  eexists. exists d. split; [reflexivity|]. split; [exact Hd|exact Id].
Qed.

(* --- corners of a two-dimensional catalog --- *)

Lemma sorted_ends s : StronglySorted Z.lt (sseq_list s) -> sseq_list s <> [] ->
  exists a b, sseq_get s 0 = Ok a /\ sseq_get s (-1) = Ok b /\
    In a (sseq_list s) /\ In b (sseq_list s) /\ forall x, In x (sseq_list s) -> a <= x <= b.
Proof.
  intros S N. rewrite !sseq_get_spec. set (l := sseq_list s) in *. clearbody l.
  destruct l as [|a m]; [congruence|].
  destruct (exists_last N) as (k & b & E).
  exists a, b. split; [|split; [|split; [|split]]].
  - unfold py_get. rewrite zlen_cons. pose proof (zlen_nonneg m). cbn [Z.ltb Z.compare].
    replace ((0 <=? 0) && (0 <? 1 + zlen m)) with true by lia. reflexivity.
  - unfold py_get. rewrite E. rewrite zlen_app. change (zlen [b]) with 1. pose proof (zlen_nonneg k).
    cbn [Z.ltb Z.compare]. replace (-1 + (zlen k + 1)) with (zlen k) by lia.
    replace ((0 <=? zlen k) && (zlen k <? zlen k + 1)) with true by lia.
    replace (Z.to_nat (zlen k)) with (length k) by (unfold zlen; lia).
    rewrite nth_error_app2, Nat.sub_diag by lia. reflexivity.
  - left. reflexivity.
  - rewrite E. apply in_or_app. right. left. reflexivity.
  - intros x I. split.
    + inversion S as [|? ? S1 S2]; subst. destruct I as [<-|I]; [lia|].
      rewrite Forall_forall in S2. specialize (S2 x I). lia.
    + rewrite E in S, I. apply in_app_or in I. destruct I as [I|[<-|[]]]; [|lia].
      apply StronglySorted_app_inv in S. destruct S as (_ & _ & S).
      specialize (S x b I (or_introl eq_refl)). lia.
Qed.

Lemma create2_corners items : items <> [] -> NoDup (map fst items) ->
  exists c i0 i1 j0 j1, fst (create2 items) = Ok (Some c) /\
    cat2_key_min c = Ok (i0, j0) /\ cat2_key_max c = Ok (i1, j1) /\
    (forall i j v, In ((i, j), v) items -> i0 <= i <= i1 /\ j0 <= j <= j1) /\
    (exists j v, In ((i0, j), v) items) /\ (exists j v, In ((i1, j), v) items) /\
    (exists i v, In ((i, j0), v) items) /\ (exists i v, In ((i, j1), v) items) /\
    (forall v, cat2_value_first c = Ok v <-> In ((i0, j0), v) items) /\
    (forall v, cat2_value_last c = Ok v <-> In ((i1, j1), v) items) /\
    (cat2_value_first c = Err KeyError <-> ~ In (i0, j0) (map fst items)) /\
    (cat2_value_last c = Err KeyError <-> ~ In (i1, j1) (map fst items)).
Proof.
  intros N D. destruct (create2_holds items N D) as (c & E & H & Si & Sj & Ii & Ij).
  assert (Ni : sseq_list (cat2_i_range c) <> []).
  { destruct items as [|((i, j), v) items]; [congruence|]. intros F.
    assert (I : In i (sseq_list (cat2_i_range c))) by (apply Ii; exists j, v; left; reflexivity).
    rewrite F in I. destruct I. }
  assert (Nj : sseq_list (cat2_j_range c) <> []).
  { destruct items as [|((i, j), v) items]; [congruence|]. intros F.
    assert (I : In j (sseq_list (cat2_j_range c))) by (apply Ij; exists i, v; left; reflexivity).
    rewrite F in I. destruct I. }
  destruct (sorted_ends _ Si Ni) as (i0 & i1 & Ei0 & Ei1 & Ii0 & Ii1 & Bi).
  destruct (sorted_ends _ Sj Nj) as (j0 & j1 & Ej0 & Ej1 & Ij0 & Ij1 & Bj).
  assert (G : forall k v, cat2_get c k = Ok v <-> In (k, v) items).
  { intros k v. split.
    - intros Ek. destruct (in_dec (fun a b : Z * Z => ltac:(repeat decide equality)) k (map fst items)) as [I|I].
      + apply in_map_iff in I. destruct I as ((k', v') & Ef & I). cbn in Ef. subst k'.
        rewrite (he_get _ _ _ _ _ H k v' I) in Ek. injection Ek as ->. exact I.
      + rewrite (he_absent _ _ _ _ _ H k I) in Ek. discriminate.
    - apply (he_get _ _ _ _ _ H). }
  assert (A : forall k, cat2_get c k = Err KeyError <-> ~ In k (map fst items)).
  { intros k. split; [|apply (he_absent _ _ _ _ _ H)].
    intros Ek I. apply in_map_iff in I. destruct I as ((k', v') & Ef & I). cbn in Ef. subst k'.
    rewrite (he_get _ _ _ _ _ H k v' I) in Ek. discriminate. }
  exists c, i0, i1, j0, j1.
  assert (Kmin : cat2_key_min c = Ok (i0, j0)) by (unfold cat2_key_min; rewrite Ei0, Ej0; reflexivity).
  assert (Kmax : cat2_key_max c = Ok (i1, j1)) by (unfold cat2_key_max; rewrite Ei1, Ej1; reflexivity).
  split; [exact E|]. split; [exact Kmin|]. split; [exact Kmax|].
  split. { intros i j v I. split; [apply Bi, Ii; eauto|apply Bj, Ij; eauto]. }
  split; [apply Ii, Ii0|]. split; [apply Ii, Ii1|]. split; [apply Ij, Ij0|]. split; [apply Ij, Ij1|].
  unfold cat2_value_first, cat2_value_last. rewrite Kmin, Kmax. cbn [bind].
  split; [intros v; apply G|]. split; [intros v; apply G|]. split; apply A.
Qed.
