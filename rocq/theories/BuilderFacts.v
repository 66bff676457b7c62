(* Proofs about builders and the mapping operations of catalogs. *)
From Coq Require Import ZArith List Bool Lia Sorted Permutation ZifyBool.
From Verif Require Import Py Util Catalog PyFacts Spec_Util UtilFacts Spec_Catalog CatalogFacts Builder Spec_Builder.
Import ListNotations.
Open Scope Z_scope.

(* --- create() does not depend on the order of the items --- *)

Lemma perm_nodup_fst {K} (l m : list (K * Z)) : Permutation l m -> NoDup (map fst l) <-> NoDup (map fst m).
Proof.
  intros P. split; intros N; (eapply Permutation_NoDup; [|exact N]); apply Permutation_map; auto.
  now symmetry.
Qed.

Lemma sort_fst_unique (l m : list (Z * Z)) : Permutation l m -> NoDup (map fst l) ->
  sort_by fst_leb l = sort_by fst_leb m.
Proof.
  intros P N.
  assert (St : forall l, NoDup (map fst l) ->
    StronglySorted (fun a b : Z * Z => fst a < fst b) (sort_by fst_leb l)).
  { clear. intros l N. destruct (sort_fst l) as (P & S).
    apply (StronglySorted_map fst Z.lt). apply sorted_le_nodup_lt; auto.
    now apply (perm_nodup_fst _ _ P). }
  apply (ss_ext (fun a b : Z * Z => fst a < fst b)); [lia| | |].
  - auto.
  - apply St. now apply (perm_nodup_fst l m).
  - intros x. rewrite !sort_by_In. split; apply Permutation_in; auto. now symmetry.
Qed.

Lemma create1_order l m : Permutation l m -> fst (create1 l) = fst (create1 m).
Proof.
  intros P. destruct l as [|a l].
  { apply Permutation_nil in P. now subst. }
  assert (Hm : m <> []) by (intros ->; symmetry in P; apply Permutation_nil in P; discriminate).
  destruct (create1_dup (a :: l) ltac:(discriminate)) as (d & E & Hd).
  destruct d.
  - assert (N : ~ NoDup (map fst (a :: l))) by now apply Hd.
    rewrite (proj2 (create1_none (a :: l) ltac:(discriminate)) N).
    symmetry. apply create1_none; auto. now rewrite <- (perm_nodup_fst _ _ P).
  - assert (N : NoDup (map fst (a :: l))).
    { destruct (create1_dup (a :: l) ltac:(discriminate)) as (d & E' & Hd'). rewrite E in E'.
      injection E' as <-. destruct (ListDec.NoDup_dec Z.eq_dec (map fst (a :: l))); auto.
      apply Hd in n. discriminate. }
    unfold create1. cbn [fst]. now rewrite (sort_fst_unique _ _ P N).
Qed.

Lemma sort12_unique (l m : list ((Z * Z) * Z)) : Permutation l m -> NoDup (map fst l) ->
  sort_by key12_leb l = sort_by key12_leb m.
Proof.
  intros P N.
  apply (ss_ext (fun a b : (Z * Z) * Z => lex (fst a) (fst b))).
  - intros x y. apply lex_asym.
  - apply (StronglySorted_map fst lex). now apply sort12_lex.
  - apply (StronglySorted_map fst lex). apply sort12_lex. now apply (perm_nodup_fst l m).
  - intros x. rewrite !sort_by_In. split; apply Permutation_in; auto. now symmetry.
Qed.

Lemma pair_dec (a b : Z * Z) : {a = b} + {a <> b}.
Proof. decide equality; apply Z.eq_dec. Qed.

Lemma create2_order l m : Permutation l m -> fst (create2 l) = fst (create2 m).
Proof.
  intros P. destruct l as [|a l].
  { apply Permutation_nil in P. now subst. }
  assert (Hm : m <> []) by (intros ->; symmetry in P; apply Permutation_nil in P; discriminate).
  destruct (ListDec.NoDup_dec pair_dec (map fst (a :: l))) as [N|N].
  - unfold create2. now rewrite (sort12_unique _ _ P N).
  - rewrite (proj2 (create2_none (a :: l) ltac:(discriminate)) N).
    symmetry. apply create2_none; auto. now rewrite <- (perm_nodup_fst _ _ P).
Qed.

(* --- histories of a builder --- *)

Section History.
Context {K C : Type} (create : list (K * Z) -> res (option C) * list (K * Z)).
Hypothesis keeps : forall l, Permutation (snd (create l)) l.
Hypothesis order : forall l m, Permutation l m -> fst (create l) = fst (create m).

Lemma run_perm ops : forall l m, Permutation l m ->
  builder_run create l ops = builder_run create m ops.
Proof.
  induction ops as [|[k v|] ops IH]; intros l m P; auto; cbn [builder_run].
  - apply IH. now apply Permutation_app_tail.
  - pose proof (order l m P) as E. pose proof (keeps l) as Kl. pose proof (keeps m) as Km.
    destruct (create l) as (r1, h1), (create m) as (r2, h2). cbn [fst snd] in *. subst r2.
    f_equal. apply IH. now rewrite Kl, Km.
Qed.

Lemma run_history before after : forall held,
  nth_error (builder_run create held (before ++ BCreate :: after)) (num_creates before)
  = Some (fst (create (held ++ added before))).
Proof.
  induction before as [|[k v|] before IH]; intros held; cbn [app builder_run num_creates added].
  - rewrite app_nil_r. destruct (create held); reflexivity.
  - rewrite IH. now rewrite <- app_assoc.
  - pose proof (keeps held) as Kh. destruct (create held) as (r, h). cbn [nth_error snd] in *.
    rewrite IH. f_equal. apply order. now apply Permutation_app_tail.
Qed.

Lemma run_length ops : forall held, length (builder_run create held ops) = num_creates ops.
Proof.
  induction ops as [|[k v|] ops IH]; intros held; cbn [builder_run num_creates]; auto.
  destruct (create held). cbn. now rewrite IH.
Qed.
End History.

Lemma take_entries_pairs {K} (items : list (K * Z)) : forall acc,
  take_entries acc (map (fun p => EPair (fst p) (snd p)) items) = Ok (acc ++ items).
Proof.
  induction items as [|(k, v) items IH]; intros acc; cbn [take_entries map].
  - now rewrite app_nil_r.
  - cbn [entry_len fst snd]. change (negb (2 =? 2)) with false. cbv iota. rewrite IH.
    now rewrite <- app_assoc.
Qed.

Lemma take_entries_fails {K} (l : list (entry K)) : forall acc,
  (exists items, entries_are l items) \/ take_entries acc l = Err ValueError.
Proof.
  induction l as [|e l IH]; intros acc; [left; now exists []|].
  destruct e as [k v|n]; cbn [take_entries entry_len].
  - change (negb (2 =? 2)) with false. cbv iota.
    destruct (IH (acc ++ [(k, v)])) as [(items & H)|H]; [left|now right].
    exists ((k, v) :: items). red in H |- *. now rewrite H.
  - right. now destruct (negb (n =? 2)).
Qed.

Lemma init_spec {K} (a : builder_arg K) items :
  builder_init a = Ok items <->
  match a with
  | ANone => items = []
  | AMapping m => items = m
  | AIterable l => entries_are l items
  | AOther => False
  end.
Proof.
  destruct a as [|m|l|]; cbn [builder_init]; try (split; congruence);
    [|split; [discriminate|tauto]].
  - split; [|intros H; red in H; subst l; apply take_entries_pairs].
    destruct (take_entries_fails l []) as [(its & H)|H]; [|intros E; congruence].
    red in H. subst l. rewrite take_entries_pairs. intros [= <-]. reflexivity.
Qed.

Lemma init_fails {K} (a : builder_arg K) :
  (forall l, a = AIterable l -> (forall items, ~ entries_are l items) -> builder_init a = Err ValueError) /\
  (a = AOther -> builder_init a = Err TypeError).
Proof.
  split; [|intros ->; reflexivity]. intros l -> H. cbn [builder_init].
  destruct (take_entries_fails l []) as [(its & F)|F]; auto. now apply H in F.
Qed.

(* --- the operations of a mapping --- *)

Section Mapping.
Context {K : Type} (keqb : K -> K -> bool).
Hypothesis keqb_ok : forall a b, keqb a b = true <-> a = b.

Lemma items_ok get (iter : list K) (items : list (K * Z)) :
  (forall k v, In (k, v) items -> get k = Ok v) ->
  (forall k, In k iter -> In k (map fst items)) ->
  exists l, mapping_items get iter = Ok l /\ map fst l = iter /\
    (forall k v, In (k, v) l -> In (k, v) items).
Proof.
  intros G. induction iter as [|k iter IH]; intros H; cbn [mapping_items].
  - exists []. repeat split; auto. intros k v [].
  - destruct IH as (l & E & F & I); [intros; apply H; now right|].
    pose proof (H k (or_introl eq_refl)) as Hk. apply in_map_iff in Hk.
    destruct Hk as ((k', v) & <- & Hk). cbn [fst] in *. rewrite (G _ _ Hk). cbn [bind]. rewrite E.
    cbn [bind]. eexists. repeat split; [cbn; now f_equal|].
    intros k0 v0 [[= <- <-]|H0]; auto.
Qed.

Lemma holds_items get mem len iter (items : list (K * Z)) : NoDup (map fst items) ->
  holds_exactly get mem len iter items ->
  exists l, mapping_items get iter = Ok l /\ Permutation l items /\ map fst l = iter.
Proof.
  intros N H. destruct H as [G A M L I].
  destruct (items_ok get iter items G) as (l & E & F & H).
  { intros k Hk. eapply Permutation_in; eauto. }
  exists l. repeat split; auto.
  assert (NL : NoDup (map fst l)).
  { rewrite F. eapply Permutation_NoDup; [symmetry|]; eauto. }
  apply NoDup_Permutation; try (eapply NoDup_map_inv; eauto).
  intros (k, v). split; [apply H|]. intros Hk.
  assert (Hf : In k (map fst l)).
  { rewrite F. eapply Permutation_in; [symmetry; exact I|]. now apply (in_map fst) in Hk. }
  apply in_map_iff in Hf. destruct Hf as ((k', v') & E' & Hl). cbn in E'. subst k'.
  pose proof (H _ _ Hl) as H2. pose proof (G _ _ Hk). pose proof (G _ _ H2). congruence.
Qed.

Lemma dict_eq_spec (a b : list (K * Z)) : NoDup (map fst a) -> NoDup (map fst b) ->
  dict_eq keqb a b = true <-> (forall k v, In (k, v) a <-> In (k, v) b).
Proof.
  intros Na Nb. unfold dict_eq. rewrite andb_true_iff, forallb_forall.
  assert (G : forall p, (match od_get keqb b (fst p) with Ok v => snd p =? v | Err _ => false end) = true
              <-> In p b).
  { intros (k, v). cbn [fst snd]. split.
    - destruct (od_get keqb b k) as [w|e] eqn:E; [|discriminate]. intros Hv.
      assert (v = w) by lia. subst w.
      destruct (in_dec (fun x y => match bool_dec (keqb x y) true with
                 | Coq.Init.Specif.left H => Coq.Init.Specif.left (proj1 (keqb_ok x y) H)
                 | Coq.Init.Specif.right H => Coq.Init.Specif.right (fun F => H (proj2 (keqb_ok x y) F)) end) k (map fst b)) as [Hk|Hk].
      + apply in_map_iff in Hk. destruct Hk as ((k', w) & Ek & Hb). cbn in Ek. subst k'.
        rewrite (od_get_in keqb keqb_ok b k w Nb Hb) in E. congruence.
      + rewrite (od_get_absent keqb keqb_ok b k Hk) in E. discriminate.
    - intros Hb. rewrite (od_get_in keqb keqb_ok b k v Nb Hb). lia. }
  split.
  - intros (L & H). assert (I : incl a b) by (intros p Hp; apply G; auto).
    intros k v. split; [apply I|].
    apply (NoDup_length_incl (NoDup_map_inv fst a Na)); auto. unfold zlen in L. lia.
  - intros H. split.
    + assert (P : Permutation a b).
      { apply NoDup_Permutation; try (eapply NoDup_map_inv; eauto). intros (k, v). apply H. }
      unfold zlen. rewrite (Permutation_length P). lia.
    + intros (k, v) Hp. apply G. now apply H.
Qed.

Lemma mapping_eq_spec get1 mem1 len1 iter1 get2 mem2 len2 iter2 (items1 items2 : list (K * Z)) :
  NoDup (map fst items1) -> NoDup (map fst items2) ->
  holds_exactly get1 mem1 len1 iter1 items1 -> holds_exactly get2 mem2 len2 iter2 items2 ->
  exists b, mapping_eq keqb get1 iter1 get2 iter2 = Ok b /\
    (b = true <-> forall k v, In (k, v) items1 <-> In (k, v) items2).
Proof.
  intros N1 N2 H1 H2.
  destruct (holds_items _ _ _ _ _ N1 H1) as (l1 & E1 & P1 & F1).
  destruct (holds_items _ _ _ _ _ N2 H2) as (l2 & E2 & P2 & F2).
  unfold mapping_eq. rewrite E1, E2. cbn [bind]. eexists. split; [reflexivity|].
  assert (M1 : NoDup (map fst l1)) by now apply (perm_nodup_fst _ _ P1).
  assert (M2 : NoDup (map fst l2)) by now apply (perm_nodup_fst _ _ P2).
  rewrite !(od_of_nodup keqb keqb_ok) by auto. rewrite dict_eq_spec by auto.
  assert (I1 : forall x, In x l1 <-> In x items1).
  { intros x. split; apply Permutation_in; auto. now symmetry. }
  assert (I2 : forall x, In x l2 <-> In x items2).
  { intros x. split; apply Permutation_in; auto. now symmetry. }
  split; intros H k v; specialize (H k v); rewrite ?I1, ?I2 in *; auto.
Qed.

Lemma mapping_get_spec get mem len iter (items : list (K * Z)) : holds_exactly get mem len iter items ->
  forall k d,
    (forall v, In (k, v) items -> mapping_get get k d = Ok v) /\
    (~ In k (map fst items) -> mapping_get get k d = Ok d).
Proof.
  intros [G A _ _ _] k d. unfold mapping_get. split.
  - intros v H. now rewrite (G _ _ H).
  - intros H. now rewrite (A _ H).
Qed.

Lemma mapping_views get mem len iter (items : list (K * Z)) : NoDup (map fst items) ->
  holds_exactly get mem len iter items ->
  exists l, mapping_items get iter = Ok l /\ Permutation l items /\ map fst l = iter /\
    mapping_values get iter = Ok (map snd l).
Proof.
  intros N H. destruct (holds_items _ _ _ _ _ N H) as (l & E & P & F).
  exists l. repeat split; auto. unfold mapping_values. now rewrite E.
Qed.
End Mapping.
