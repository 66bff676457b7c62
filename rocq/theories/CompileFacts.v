(* Proofs about Packing.v: class lookup and compile_struct. *)
From Coq Require Import String ZArith List Bool Lia ZifyBool ZifyNat Sorted Permutation.
From Verif Require Import Py Util Packing PyFacts Spec_Util UtilFacts Spec_Packing PackFacts.
Import ListNotations.
Open Scope Z_scope.

(* --- class attribute lookup --- *)

Definition levels_ok (c : fmt) : Prop := forall l, In l (fmt_levels c) -> NoDup (map fd_name (snd l)).

Lemma find_field_some n l f : find_field n l = Some f -> In f l /\ fd_name f = n.
Proof. intros H. apply find_some in H. destruct H as (A & B). now apply String.eqb_eq in B. Qed.
Lemma find_field_none n l : find_field n l = None <-> forall f, In f l -> fd_name f <> n.
Proof.
  unfold find_field. split.
  - intros H f Hf E. pose proof (find_none _ _ H f Hf) as Q. cbn in Q. apply String.eqb_neq in Q. auto.
  - intros H. destruct (find _ l) eqn:E; auto. apply find_some in E. destruct E as (A & B).
    apply String.eqb_eq in B. exfalso. now apply (H f).
Qed.
Lemma NoDup_map_inj {A B} (g : A -> B) l x y : NoDup (map g l) -> In x l -> In y l -> g x = g y -> x = y.
Proof.
  induction l as [|a l IH]; cbn; [easy|]. intros N [->|Hx] [->|Hy] E; auto; inversion N as [|? ? N1 N2]; subst.
  - exfalso. apply N1. rewrite E. now apply in_map.
  - exfalso. apply N1. rewrite <- E. now apply in_map.
  - now apply IH.
Qed.
Lemma find_field_In n l f : NoDup (map fd_name l) -> In f l -> fd_name f = n -> find_field n l = Some f.
Proof.
  intros N H E. destruct (find_field n l) as [g|] eqn:F.
  - apply find_field_some in F. destruct F as (A & B). f_equal. apply (NoDup_map_inj fd_name l); auto; congruence.
  - exfalso. now apply (proj1 (find_field_none n l) F f).
Qed.

Lemma find_level_some n ls f : find_level n ls = Some f ->
  exists ls1 l ls2, ls = ls1 ++ l :: ls2 /\ In f (snd l) /\ fd_name f = n /\
    (forall l' g, In l' ls2 -> In g (snd l') -> fd_name g <> n).
Proof.
  revert f; induction ls as [|l ls IH]; intros f; cbn [find_level]; [discriminate|].
  destruct (find_level n ls) as [g|] eqn:E.
  - injection 1 as ->. destruct (IH f eq_refl) as (ls1 & l0 & ls2 & -> & H).
    exists (l :: ls1), l0, ls2. auto.
  - intros F. apply find_field_some in F. destruct F as (A & B). exists [], l, ls. split; auto. split; auto. split; auto.
    clear -E. intros l' g Hl Hg En. revert E. induction ls as [|m ls IH]; [easy|]. cbn [find_level].
    destruct (find_level n ls) eqn:F; [easy|]. intros G. destruct Hl as [->|Hl]; [|now apply IH].
    now apply (proj1 (find_field_none n (snd l')) G g).
Qed.

Lemma find_level_none n ls : find_level n ls = None <-> forall l g, In l ls -> In g (snd l) -> fd_name g <> n.
Proof.
  split.
  - intros E. induction ls as [|m ls IH]; [easy|]. cbn [find_level] in E.
    destruct (find_level n ls) eqn:F; [easy|]. intros l' g [->|Hl] Hg; [|now apply (IH eq_refl l')].
    now apply (proj1 (find_field_none n (snd l')) E g).
  - intros H. destruct (find_level n ls) as [f|] eqn:E; auto.
    apply find_level_some in E. destruct E as (ls1 & l & ls2 & -> & A & B & _). exfalso.
    apply (H l f); auto. apply in_or_app. right. now left.
Qed.

Lemma class_field_spec c n f : levels_ok c -> class_field c n = Some f <-> is_field c f /\ fd_name f = n.
Proof.
  intros K. unfold class_field, is_field. split.
  - intros H. apply find_level_some in H. destruct H as (ls1 & l & ls2 & E & A & B & C). split; auto.
    exists ls1, l, ls2. split; auto. split; auto. now rewrite B.
  - intros ((ls1 & l & ls2 & E & A & C) & <-). unfold levels_ok in K. rewrite E in *.
    assert (N : NoDup (map fd_name (snd l))) by (apply K; apply in_or_app; right; now left).
    assert (F : find_level (fd_name f) ls2 = None) by (apply find_level_none; auto). clear K C E.
    induction ls1 as [|m ls1 IH]; cbn [app find_level].
    + rewrite F. now apply find_field_In.
    + now rewrite IH.
Qed.

Lemma is_field_name c f g : levels_ok c -> is_field c f -> is_field c g -> fd_name f = fd_name g -> f = g.
Proof.
  intros K Hf Hg E. assert (A : class_field c (fd_name f) = Some f) by (apply class_field_spec; auto).
  assert (B : class_field c (fd_name f) = Some g) by (apply class_field_spec; auto). congruence.
Qed.

Lemma ordered_names_In c n : In n (ordered_field_names c) <-> class_field c n <> None.
Proof.
  unfold ordered_field_names, class_field. rewrite in_flat_map. split.
  - intros (l & Hl & Hn). apply in_map_iff in Hn. destruct Hn as (f & <- & Hf). intros H.
    now apply (proj1 (find_level_none _ _) H l f).
  - intros H. destruct (find_level n (fmt_levels c)) as [f|] eqn:E; [|easy].
    apply find_level_some in E. destruct E as (ls1 & l & ls2 & E & A & B & _).
    exists l. rewrite E. split; [apply in_or_app; right; now left|]. apply in_map_iff. eauto.
Qed.

Lemma class_fields_names c : map fd_name (class_fields c) = ordered_field_names c.
Proof.
  unfold class_fields. assert (H : forall n, In n (ordered_field_names c) -> class_field c n <> None) by (intros; now apply ordered_names_In).
  revert H. generalize (ordered_field_names c) as ns. induction ns as [|n ns IH]; intros H; auto.
  cbn [flat_map]. destruct (class_field c n) as [f|] eqn:E; [|exfalso; apply (H n); [now left|auto]].
  cbn [app map]. rewrite IH by (intros; apply H; now right). f_equal.
  unfold class_field in E. apply find_level_some in E. destruct E as (? & ? & ? & _ & _ & B & _). auto.
Qed.

Lemma class_fields_In c f : levels_ok c -> In f (class_fields c) <-> is_field c f.
Proof.
  intros K. unfold class_fields. rewrite in_flat_map. split.
  - intros (n & Hn & H). destruct (class_field c n) as [g|] eqn:E; [|easy].
    destruct H as [->|[]]. now apply (class_field_spec c n f K) in E.
  - intros H. exists (fd_name f). split.
    + apply ordered_names_In. intros E. assert (class_field c (fd_name f) = Some f) by (apply class_field_spec; auto). congruence.
    + assert (E : class_field c (fd_name f) = Some f) by (apply class_field_spec; auto). rewrite E. now left.
Qed.

(* --- sizes and spans --- *)

Lemma size_of_field f : size_of (fd_type f) = field_size f.
Proof. unfold size_of, field_size. apply ctype_size_spec. Qed.
Lemma field_size_pos f : 1 <= field_size f.
Proof. rewrite <- size_of_field. apply ctype_size_pos. Qed.

(* equal or entirely before *)
Definition Rspan (a b : fieldd) : Prop :=
  (fd_offset a = fd_offset b /\ field_size a = field_size b) \/ fd_offset a + field_size a <= fd_offset b.

Lemma Rspan_trans a b c : Rspan a b -> Rspan b c -> Rspan a c.
Proof. unfold Rspan. pose proof (field_size_pos b). lia. Qed.

Lemma overlap_field a b : fd_offset a <= fd_offset b ->
  intervals_partially_overlap KRange (field_span a) (field_span b) = false <-> Rspan a b.
Proof.
  intros H. pose proof (field_size_pos a). pose proof (field_size_pos b).
  assert (Q := overlap_spec KRange (field_span a) (field_span b)).
  unfold field_span in *. cbn [fst snd] in Q. rewrite !size_of_field in *.
  specialize (Q ltac:(lia) ltac:(lia)). unfold in_interval in Q. cbn [fst snd] in Q.
  destruct (intervals_partially_overlap _ _ _) eqn:E.
  - split; [discriminate|]. intros [(A & B)|A]; exfalso; destruct (proj1 Q eq_refl) as ((x & X) & N).
    + apply N. f_equal; lia.
    + lia.
  - split; auto. intros _. destruct (Z.le_gt_cases (fd_offset a + field_size a) (fd_offset b)) as [|G]; [now right|].
    destruct (Z.eq_dec (fd_offset a) (fd_offset b)), (Z.eq_dec (field_size a) (field_size b)); [left; auto|exfalso..];
      assert (false = true) by (apply Q; split; [exists (fd_offset b); lia|intros C; injection C; lia]); discriminate.
Qed.

Lemma Rspan_no_overlap a b : Rspan a b -> ~ partial_overlap a b /\ ~ partial_overlap b a.
Proof. unfold Rspan, partial_overlap. intros H. split; intros ((i & A & B) & C); lia. Qed.

Lemma overlap_partial a b : fd_offset a <= fd_offset b ->
  intervals_partially_overlap KRange (field_span a) (field_span b) = true -> partial_overlap a b.
Proof.
  intros H E. assert (N : ~ Rspan a b) by (intros R; apply (overlap_field a b H) in R; congruence).
  pose proof (field_size_pos a). pose proof (field_size_pos b). unfold Rspan in N. split.
  - exists (fd_offset b). lia.
  - lia.
Qed.

Lemma chain_strong {A} (R : A -> A -> Prop) l : (forall x y z, R x y -> R y z -> R x z) ->
  (forall p, In p (combine l (tl l)) -> R (fst p) (snd p)) -> StronglySorted R l.
Proof.
  intros tr H. apply Sorted_StronglySorted; [exact tr|].
  induction l as [|a [|b l] IH]; [constructor|repeat constructor|constructor].
  - apply IH. intros p Hp. apply H. cbn [tl combine]. now right.
  - constructor. apply (H (a, b)). cbn. now left.
Qed.

Lemma strong_pairs {A} (R : A -> A -> Prop) l x y : StronglySorted R l -> In x l -> In y l -> x = y \/ R x y \/ R y x.
Proof.
  induction 1 as [|a l S IH F]; cbn; [easy|]. rewrite Forall_forall in F. intros [->|Hx] [->|Hy]; auto.
Qed.

Lemma combine_tl_In {A} (l : list A) p : In p (combine l (tl l)) -> In (fst p) l /\ In (snd p) l.
Proof.
  intros H. destruct p as [x y]. cbn. split; [eapply in_combine_l; eauto|].
  apply in_combine_r in H. destruct l; [easy|now right].
Qed.

Definition off_leb (a b : fieldd) : bool := fd_offset a <=? fd_offset b.

Lemma off_sorted fs : StronglySorted (fun a b => fd_offset a <= fd_offset b) (sort_by off_leb fs).
Proof.
  eapply StronglySorted_weaken; [|apply sort_by_sorted].
  - unfold off_leb. cbn. intros. lia.
  - unfold off_leb. intros. lia.
  - unfold off_leb. intros. lia.
Qed.

Lemma sorted_pairs {A} (R : A -> A -> Prop) l p : StronglySorted R l -> In p (combine l (tl l)) -> R (fst p) (snd p).
Proof.
  intros S H. induction S as [|a l S IH F]; [easy|]. destruct l as [|b l]; [easy|]. cbn [tl combine] in *.
  destruct H as [<-|H]; [|now apply IH]. cbn. inversion F; auto.
Qed.

(* the overlap test *)
Lemma overlap_test fs : let l := sort_by off_leb fs in
  (existsb (fun p => intervals_partially_overlap KRange (field_span (fst p)) (field_span (snd p))) (combine l (tl l)) = true ->
     exists f g, In f fs /\ In g fs /\ partial_overlap f g) /\
  (existsb (fun p => intervals_partially_overlap KRange (field_span (fst p)) (field_span (snd p))) (combine l (tl l)) = false ->
     StronglySorted Rspan l /\ forall f g, In f fs -> In g fs -> ~ partial_overlap f g).
Proof.
  intros l. pose proof (off_sorted fs) as S. fold l in S. split; intros E.
  - apply existsb_exists in E. destruct E as (p & Hp & E).
    destruct (combine_tl_In _ _ Hp) as (A & B). exists (fst p), (snd p).
    unfold l in A, B. rewrite sort_by_In in A, B. split; auto. split; auto. apply overlap_partial; auto.
    now apply (sorted_pairs _ _ _ S).
  - assert (SR : StronglySorted Rspan l).
    { apply chain_strong; [apply Rspan_trans|]. intros p Hp.
      assert (O := sorted_pairs _ _ _ S Hp). apply overlap_field; auto.
      destruct (intervals_partially_overlap _ _ _) eqn:Q; auto.
      assert (existsb (fun p => intervals_partially_overlap KRange (field_span (fst p)) (field_span (snd p))) (combine l (tl l)) = true)
        by (apply existsb_exists; eauto). congruence. }
    split; auto. intros f g Hf Hg. rewrite <- (sort_by_In off_leb fs) in Hf, Hg. fold l in Hf, Hg.
    destruct (strong_pairs _ _ _ _ SR Hf Hg) as [->|[R|R]].
    + intros (_ & C). apply C. auto.
    + apply (Rspan_no_overlap _ _ R).
    + apply (Rspan_no_overlap _ _ R).
Qed.

(* --- grouping --- *)

Definition group_ok (start : Z) (g : Z * list fieldd) : Prop :=
  snd g <> [] /\ (forall f, In f (snd g) -> fd_offset f - start = fst g) /\
  (forall f f', In f (snd g) -> In f' (snd g) -> ft_name (fd_type f) = ft_name (fd_type f')).

Definition groups_ok (start : Z) (d : list (Z * list fieldd)) : Prop :=
  StronglySorted Z.lt (map fst d) /\ Forall (group_ok start) d.

Lemma group_insert_spec start f : forall d, groups_ok start d ->
  (forall o, In o (map fst d) -> o <= fd_offset f - start) ->
  (exists d', group_insert (fd_offset f - start) f d = Ok d' /\ groups_ok start d' /\
     flat_map snd d' = flat_map snd d ++ [f] /\ (forall o, In o (map fst d') -> o <= fd_offset f - start)) \/
  (group_insert (fd_offset f - start) f d = Err TypeError /\
     exists g, In g (flat_map snd d) /\ fd_offset g = fd_offset f /\ ft_name (fd_type g) <> ft_name (fd_type f)).
Proof.
  set (rel := fd_offset f - start).
  induction d as [|[o fs] d IH]; intros (S & F) L; cbn [group_insert].
  - left. eexists. split; [reflexivity|]. split.
    + split; [repeat constructor|]. constructor; [|constructor]. split; [discriminate|]. split.
      * intros g [<-|[]]. reflexivity.
      * intros g g' [<-|[]] [<-|[]]. reflexivity.
    + split; auto. cbn. intros o [<-|[]]. lia.
  - cbn [map fst] in S. inversion S as [|? ? S1 S2]; subst. inversion F as [|? ? F1 F2]; subst.
    destruct (o =? rel) eqn:E.
    + assert (o = rel) as -> by lia.
      assert (d = []) as ->.
      { destruct d as [|[o' fs'] d]; auto. exfalso. inversion S2 as [|? ? X]; subst. cbn in X.
        specialize (L o' (or_intror (or_introl eq_refl))). lia. }
      destruct F1 as (N & A & B). cbn [fst snd] in *. destruct fs as [|g fs]; [easy|].
      destruct (String.eqb _ _) eqn:T.
      * apply String.eqb_eq in T. left. eexists. split; [reflexivity|]. split; [|split].
        -- split; [repeat constructor|]. constructor; [|constructor]. cbn [fst snd]. split; [discriminate|]. split.
           ++ intros h Hh. cbn [snd fst] in *. apply in_app_or in Hh. destruct Hh as [Hh|[<-|[]]]; [now apply A|reflexivity].
           ++ intros h h' Hh Hh'. cbn [snd] in *. apply in_app_or in Hh, Hh'.
              assert (Q : forall k, In k (g :: fs) \/ In k [f] -> ft_name (fd_type k) = ft_name (fd_type g)).
              { intros k [Hk|[<-|[]]]; [apply B; auto; now left|auto]. }
              now rewrite (Q h Hh), (Q h' Hh').
        -- cbn [flat_map snd]. now rewrite !app_nil_r.
        -- cbn. intros o [<-|[]]. lia.
      * apply String.eqb_neq in T. right. split; auto. exists g. split; [apply in_or_app; left; now left|].
        split; auto. specialize (A g (or_introl eq_refl)). unfold rel in A. lia.
    + destruct IH as [(d' & -> & (S' & F') & C & L')|(-> & g & G1 & G2)].
      * split; auto.
      * intros o' Ho'. apply L. now right.
      * left. cbn [bind]. eexists. split; [reflexivity|]. split; [|split].
        -- split; [|now constructor]. cbn [map fst]. constructor; auto.
           apply Forall_forall. intros o' Ho'. 
           assert (Q : In o' (map fst d) \/ o' = rel).
           { clear -Ho' F' C F2. apply in_map_iff in Ho'. destruct Ho' as ((o1 & g1) & <- & H). cbn.
             rewrite Forall_forall in F'. destruct (F' _ H) as (N & A & _). cbn in *. destruct g1 as [|g gs]; [easy|].
             assert (I : In g (flat_map snd d ++ [f])).
             { rewrite <- C. apply in_flat_map. eexists. split; [exact H|]. now left. }
             specialize (A g (or_introl eq_refl)). apply in_app_or in I. destruct I as [I|[<-|[]]].
             - left. apply in_flat_map in I. destruct I as ((o2 & g2) & I1 & I2).
               rewrite Forall_forall in F2. destruct (F2 _ I1) as (_ & A2 & _). specialize (A2 g I2). cbn in A2.
               apply in_map_iff. exists (o2, g2). split; auto. cbn. lia.
             - right. exact (eq_sym A). }
           destruct Q as [Q| ->]; [rewrite Forall_forall in S2; now apply S2|].
           specialize (L o (or_introl eq_refl)). lia.
        -- cbn [flat_map snd]. rewrite C. now rewrite app_assoc.
        -- cbn. intros o' [<-|Ho']; [apply L; now left|now apply L'].
      * right. split; auto. exists g. cbn [flat_map snd]. split; auto. apply in_or_app. now right.
Qed.

Lemma group_fields_gen start l : forall d pre, groups_ok start d -> flat_map snd d = pre ->
  StronglySorted (fun a b => fd_offset a <= fd_offset b) (pre ++ l) ->
  (exists d', fold_left (fun r f => do d <- r ;; group_insert (fd_offset f - start) f d) l (Ok d) = Ok d' /\
     groups_ok start d' /\ flat_map snd d' = pre ++ l) \/
  (fold_left (fun r f => do d <- r ;; group_insert (fd_offset f - start) f d) l (Ok d) = Err TypeError /\
     exists f g, In f (pre ++ l) /\ In g (pre ++ l) /\ fd_offset g = fd_offset f /\ ft_name (fd_type g) <> ft_name (fd_type f)).
Proof.
  induction l as [|f l IH]; intros d pre K C S; cbn [fold_left bind].
  - left. exists d. rewrite app_nil_r. auto.
  - assert (L : forall o, In o (map fst d) -> o <= fd_offset f - start).
    { intros o Ho. apply in_map_iff in Ho. destruct Ho as ((o1 & g1) & <- & H). destruct K as (_ & K).
      rewrite Forall_forall in K. destruct (K _ H) as (N & A & _). cbn in *. destruct g1 as [|g gs]; [easy|].
      specialize (A g (or_introl eq_refl)).
      assert (In g pre) by (rewrite <- C; apply in_flat_map; eexists; split; [exact H|now left]).
      destruct (StronglySorted_app_inv _ _ _ S) as (_ & _ & Q).
      specialize (Q g f H0 (or_introl eq_refl)). cbn in Q. lia. }
    destruct (group_insert_spec start f d K L) as [(d' & -> & K' & C' & _)|(-> & g & G1 & G2 & G3)].
    + specialize (IH d' (pre ++ [f]) K' ltac:(now rewrite C', C)). rewrite <- app_assoc in IH. exact (IH S).
    + right. split.
      { clear. induction l; auto. }
      exists f, g. split; [apply in_or_app; right; now left|]. rewrite C in G1. split; [apply in_or_app; now left|]. auto.
Qed.

Lemma group_fields_spec start l : StronglySorted (fun a b => fd_offset a <= fd_offset b) l ->
  (exists d, group_fields start l = Ok d /\ groups_ok start d /\ flat_map snd d = l) \/
  (group_fields start l = Err TypeError /\
     exists f g, In f l /\ In g l /\ fd_offset g = fd_offset f /\ ft_name (fd_type g) <> ft_name (fd_type f)).
Proof.
  intros S. apply (group_fields_gen start l [] []); auto. split; constructor.
Qed.

(* --- compile_struct --- *)

Definition head_type (g : Z * list fieldd) (t : ftype) : Prop := exists f r, snd g = f :: r /\ t = fd_type f.
Definition item_of (g : Z * list fieldd) : Z * ctype :=
  (fst g, match snd g with f :: _ => ft_ctype (fd_type f) | [] => C_i end).
Definition items_of (d : list (Z * list fieldd)) : list (Z * ctype) := map item_of d.

Lemma map_res_types start d : Forall (group_ok start) d ->
  exists ts, map_res (fun g => group_type (snd g)) d = Ok ts /\
    map ft_ctype ts = map snd (items_of d) /\
    map (fun p => (fst (fst p), fst (fst p) + size_of (snd p))) (combine d ts) = spans_of (items_of d).
Proof.
  induction 1 as [|[o fs] d (N & _ & _) F (ts & E & A & B)]; [exists []; auto|].
  cbn [snd] in N. destruct fs as [|f fs]; [easy|]. exists (fd_type f :: ts). cbn [map_res snd group_type bind].
  rewrite E. cbn [bind]. split; auto. cbn [map items_of item_of fst snd combine spans_of] in *. unfold items_of in *.
  rewrite A. split; auto. f_equal. exact B.
Qed.

Lemma groups_laid_out start stop d : forall idx, groups_ok start d -> StronglySorted Rspan (flat_map snd d) ->
  (forall f, In f (flat_map snd d) -> idx <= fd_offset f - start /\ fd_offset f - start + field_size f <= stop) ->
  idx <= stop -> laid_out idx (items_of d) stop.
Proof.
  induction d as [|[o fs] d IH]; intros idx (S & F) R B L; [exact L|].
  inversion F as [|? ? (N & A & T) F2]; subst. cbn [snd fst] in *. destruct fs as [|f fs]; [easy|].
  cbn [items_of map item_of snd fst laid_out]. pose proof (A f (or_introl eq_refl)) as Ef.
  destruct (B f) as (B1 & B2); [now left|]. split; [lia|].
  cbn [map fst] in S. apply StronglySorted_inv in S. destruct S as (S1 & S2).
  replace (ctype_size (ft_ctype (fd_type f))) with (field_size f) by (symmetry; apply size_of_field).
  cbn [flat_map snd] in R. destruct (StronglySorted_app_inv _ _ _ R) as (_ & R2 & R3).
  apply IH; [split; auto|exact R2| |lia]. intros g Hg. split.
  - specialize (R3 f g (or_introl eq_refl) Hg). apply in_flat_map in Hg. destruct Hg as ((o' & gs) & I1 & I2).
    rewrite Forall_forall in F2. destruct (F2 _ I1) as (_ & A' & _). specialize (A' g I2). cbn [fst] in A'.
    rewrite Forall_forall in S2. assert (fd_offset f - start < o') by (rewrite Ef; apply S2; apply in_map_iff; now exists (o', gs)).
    destruct R3 as [(Q & _)|Q]; lia.
  - apply B. apply in_or_app. now right.
Qed.

Definition layout_bad (fs : list fieldd) (start : Z) (length : option Z) : Prop :=
  start < 0 \/ (exists n, length = Some n /\ n < 1) \/
  (exists f g, In f fs /\ In g fs /\ partial_overlap f g) \/
  (exists n f, length = Some n /\ In f fs /\ n < fd_offset f - start + field_size f).
Definition types_bad (fs : list fieldd) : Prop :=
  fs = [] \/ exists f g, In f fs /\ In g fs /\ fd_offset g = fd_offset f /\ ft_name (fd_type g) <> ft_name (fd_type f).

Definition compiled (fs : list fieldd) (start : Z) (length : option Z) (d : list (Z * list fieldd)) (len : Z) : Prop :=
  groups_ok start d /\ flat_map snd d = sort_by off_leb fs /\ StronglySorted Rspan (sort_by off_leb fs) /\
  (forall f, In f fs -> fd_offset f - start + field_size f <= len) /\
  (match length with Some n => len = n | None => exists f, In f fs /\ len = fd_offset f - start + field_size f end).

Lemma py_get_last_snoc {A} (l : list A) x : py_get (l ++ [x]) (-1) = Ok x.
Proof.
  rewrite py_get_neg by (rewrite zlen_app; pose proof (zlen_nonneg l); change (zlen [x]) with 1; lia).
  rewrite (py_get_ok _ _ x) by (rewrite zlen_app; pose proof (zlen_nonneg l); change (zlen [x]) with 1; lia).
  f_equal. rewrite zlen_app. change (zlen [x]) with 1. rewrite app_nth2 by (unfold zlen; lia).
  replace (Z.to_nat _ - Datatypes.length l)%nat with O by (unfold zlen; lia). reflexivity.
Qed.

Lemma compile_cases c start length : let fs := class_fields c in
  (compile_struct c start length = Err ValueError /\ layout_bad fs start length) \/
  (compile_struct c start length = Err TypeError /\ ~ layout_bad fs start length /\ types_bad fs) \/
  (exists d len, compile_struct c start length = Ok (chunks_for 0 (items_of d) len, map (fun g => map fd_name (snd g)) d) /\
     ~ layout_bad fs start length /\ ~ types_bad fs /\ compiled fs start length d len).
Proof.
  intros fs. unfold compile_struct. fold fs. change (sort_by _ fs) with (sort_by off_leb fs).
  destruct (start <? 0) eqn:Es; [left; split; auto; left; lia|].
  destruct (match length with Some n => n <? 1 | None => false end) eqn:El.
  { left. split; auto. right. left. destruct length as [n|]; [|easy]. exists n. split; auto. lia. }
  assert (NL : ~ (exists n, length = Some n /\ n < 1)) by (intros (n & -> & ?); lia).
  destruct (overlap_test fs) as (O1 & O2). pose proof (off_sorted fs) as OS.
  assert (SI : forall f, In f (sort_by off_leb fs) <-> In f fs) by (intros; apply sort_by_In).
  remember (sort_by off_leb fs) as l eqn:EL.
  destruct (zlen l <? 1) eqn:Z1.
  { assert (l = []) by (destruct l; auto; rewrite zlen_cons in Z1; pose proof (zlen_nonneg l); lia). subst l. rewrite H in *.
    assert (F0 : fs = []) by (destruct fs as [|f fs0]; auto; exfalso; apply (SI f); now left).
    right. left. split; auto. rewrite F0. split; [|now left].
    intros [?|[?|[(f & g & [] & _)|(n & f & _ & [] & _)]]]; [lia|auto]. }
  assert (E : (if 1 <? zlen l then do ps <- pairwise l ;; if existsb (fun p => intervals_partially_overlap KRange (field_span (fst p)) (field_span (snd p))) ps
       then Err ValueError else Ok tt else Ok tt) =
     if existsb (fun p => intervals_partially_overlap KRange (field_span (fst p)) (field_span (snd p))) (combine l (tl l)) then Err ValueError else Ok tt).
  { destruct l as [|a [|b l]]; [discriminate|reflexivity|]. rewrite !zlen_cons. pose proof (zlen_nonneg l).
    destruct (1 <? 1 + (1 + zlen l)) eqn:Q; [reflexivity|lia]. }
  rewrite E. clear E. destruct (existsb _ _) eqn:Ex.
  { left. split; auto. right. right. left. auto. }
  destruct (O2 eq_refl) as (SR & NO). clear O1 O2. cbn [bind].
  assert (Hl : exists l' x, l = l' ++ [x]).
  { destruct (exists_last (l := l)) as (l' & x & E); [intros ->; discriminate|]. eauto. }
  destruct Hl as (l' & last & Hl). assert (PG : py_get l (-1) = Ok last) by (rewrite Hl; apply py_get_last_snoc).
  rewrite PG. cbn [bind]. rewrite size_of_field.
  assert (LI : In last fs) by (apply SI; rewrite Hl; apply in_or_app; right; now left).
  assert (Max : forall f, In f fs -> fd_offset f + field_size f <= fd_offset last + field_size last).
  { intros f Hf. apply SI in Hf. rewrite Hl in Hf, SR. apply in_app_or in Hf.
    destruct (StronglySorted_app_inv _ _ _ SR) as (_ & _ & Q). destruct Hf as [Hf|[->|[]]]; [|lia].
    specialize (Q f last Hf (or_introl eq_refl)). pose proof (field_size_pos last). unfold Rspan in Q. lia. }
  set (len := match length with Some n => n | None => fd_offset last - start + field_size last end).
  destruct (len - (fd_offset last - start + field_size last) <? 0) eqn:Ep.
  { left. split; auto. right. right. right. unfold len in Ep. destruct length as [n|]; [|lia].
    exists n, last. split; auto. split; auto. lia. }
  assert (NB : ~ layout_bad fs start length).
  { intros [?|[?|[(f & g & ? & ? & ?)|(n & f & E & Hf & ?)]]]; [lia|auto|now apply (NO f g)|].
    subst length. cbv beta iota in len. specialize (Max f Hf). lia. }
  destruct (group_fields_spec start l OS) as [(d & Ed & G & C)|(Ed & f & g & Hf & Hg & Q)]; rewrite Ed; cbn [bind].
  2:{ right. left. split; auto. split; auto. right. exists f, g. rewrite <- !SI. auto. }
  destruct (map_res_types start d (proj2 G)) as (ts & Et & T1 & T2). rewrite Et. cbn [bind].
  unfold interval in *. rewrite T1, T2.
  assert (Nd : spans_of (items_of d) <> []).
  { destruct d; [|discriminate]. cbn in C. rewrite <- C in Hl. destruct l'; discriminate. }
  right. right. exists d, len. split.
  { unfold complementary_intervals. unfold chunks_for, interval in *. destruct (spans_of (items_of d)) as [|s ss] eqn:Q; [easy|]. cbn [bind]. reflexivity. }
  split; auto. split.
  { intros [F0|(f & g & Hf & Hg & Q1 & Q2)].
    - rewrite F0 in LI. destruct LI.
    - apply SI in Hf, Hg. rewrite <- C in Hf, Hg. apply in_flat_map in Hf, Hg.
      destruct Hf as ((o1 & g1) & I1 & J1), Hg as ((o2 & g2) & I2 & J2). destruct G as (GS & GF).
      rewrite Forall_forall in GF. destruct (GF _ I1) as (_ & A1 & B1), (GF _ I2) as (_ & A2 & _).
      specialize (A1 f J1). specialize (A2 g J2). cbn [fst snd] in *.
      assert (g2 = g1).
      { assert (P : (o2, g2) = (o1, g1)); [|congruence]. apply (NoDup_map_inj fst d); auto.
        - now apply StronglySorted_NoDup.
        - cbn. lia. }
      subst g2. apply Q2. auto. }
  unfold compiled. rewrite <- EL. split; auto. split; auto. split; auto. split.
  - intros f Hf. specialize (Max f Hf). lia.
  - unfold len. destruct length; auto. exists last. auto.
Qed.

Lemma compiled_laid_out fs start length d len : compiled fs start length d len ->
  (forall f, In f fs -> start <= fd_offset f) -> fs <> [] -> laid_out 0 (items_of d) len.
Proof.
  intros (G & C & SR & Max & _) H N. apply groups_laid_out with (start := start); auto.
  - now rewrite C.
  - intros f Hf. rewrite C, sort_by_In in Hf. specialize (H f Hf). specialize (Max f Hf). lia.
  - destruct fs as [|f fs]; [easy|]. specialize (H f (or_introl eq_refl)). specialize (Max f (or_introl eq_refl)).
    pose proof (field_size_pos f). lia.
Qed.

(* every field is in exactly one group, at its offset *)
Lemma compiled_group fs start length d len f : compiled fs start length d len -> In f fs ->
  exists g, In g d /\ In f (snd g) /\ fst g = fd_offset f - start.
Proof.
  intros ((_ & GF) & C & _) Hf. rewrite <- (sort_by_In off_leb), <- C in Hf. apply in_flat_map in Hf.
  destruct Hf as (g & I & J). exists g. split; auto. split; auto. rewrite Forall_forall in GF.
  destruct (GF _ I) as (_ & A & _). now rewrite (A f J).
Qed.
Lemma compiled_group_field fs start length d len g f : compiled fs start length d len -> In g d -> In f (snd g) -> In f fs /\ fst g = fd_offset f - start.
Proof.
  intros ((_ & GF) & C & _) Hg Hf. split.
  - rewrite <- (sort_by_In off_leb), <- C. apply in_flat_map. eauto.
  - rewrite Forall_forall in GF. destruct (GF _ Hg) as (_ & A & _). now rewrite (A f Hf).
Qed.
