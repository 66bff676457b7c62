(* Proofs about Packing.v: header objects, packing and unpacking. *)
From Coq Require Import String ZArith List Bool Lia ZifyBool ZifyNat Sorted Permutation.
From Verif Require Import Py Util Packing PyFacts Spec_Util UtilFacts Spec_Packing PackFacts CompileFacts.
Import ListNotations.
Open Scope Z_scope.

(* --- dictionaries --- *)

Lemma assoc_In n v l : assoc n l = Some v -> In (n, v) l.
Proof.
  unfold assoc. destruct (find _ l) as [[m w]|] eqn:E; [|discriminate]. injection 1 as ->.
  apply find_some in E. destruct E as (A & B). apply String.eqb_eq in B. cbn in B. now subst.
Qed.
Lemma assoc_None n l : assoc n l = None <-> ~ In n (map fst l).
Proof.
  unfold assoc. split.
  - intros H I. apply in_map_iff in I. destruct I as ((m & v) & <- & I). destruct (find _ l) eqn:E; [discriminate|].
    pose proof (find_none _ _ E _ I) as Q. cbn in Q. now rewrite String.eqb_refl in Q.
  - intros H. destruct (find _ l) as [p|] eqn:E; auto. exfalso. apply find_some in E. destruct E as (A & B).
    apply String.eqb_eq in B. apply H. apply in_map_iff. eauto.
Qed.
Lemma assoc_NoDup n v l : NoDup (map fst l) -> In (n, v) l -> assoc n l = Some v.
Proof.
  intros N I. destruct (assoc n l) as [w|] eqn:E.
  - apply assoc_In in E. f_equal. assert ((n, w) = (n, v)) by (apply (NoDup_map_inj fst l); auto). congruence.
  - apply assoc_None in E. exfalso. apply E. apply in_map_iff. now exists (n, v).
Qed.
Lemma assoc_cons n m v l : assoc n ((m, v) :: l) = if String.eqb m n then Some v else assoc n l.
Proof. unfold assoc. cbn [find fst]. now destruct (String.eqb m n). Qed.
Lemma assoc_set_get n m v l : assoc n (assoc_set m v l) = if String.eqb m n then Some v else assoc n l.
Proof.
  induction l as [|[k w] l IH]; cbn [assoc_set fst].
  - rewrite assoc_cons. reflexivity.
  - destruct (String.eqb k m) eqn:E; rewrite !assoc_cons.
    + apply String.eqb_eq in E. subst k. now destruct (String.eqb m n).
    + rewrite IH. destruct (String.eqb k n) eqn:F; auto. apply String.eqb_eq in F. subst k.
      rewrite String.eqb_sym in E. now rewrite E.
Qed.
Lemma assoc_set_keys m v l : map fst (assoc_set m v l) = if smem m (map fst l) then map fst l else map fst l ++ [m].
Proof.
  induction l as [|[k w] l IH]; cbn [assoc_set fst map]; auto.
  unfold smem. cbn [existsb]. rewrite (String.eqb_sym m k). destruct (String.eqb k m) eqn:E; cbn [map fst orb].
  - apply String.eqb_eq in E. now subst.
  - rewrite IH. unfold smem. now destruct (existsb _ _).
Qed.
Lemma smem_In n l : smem n l = true <-> In n l.
Proof.
  unfold smem. rewrite existsb_exists. split.
  - intros (x & A & B). apply String.eqb_eq in B. now subst.
  - intros H. exists n. split; auto. apply String.eqb_refl.
Qed.
Lemma assoc_set_NoDup m v l : NoDup (map fst l) -> NoDup (map fst (assoc_set m v l)).
Proof.
  intros N. rewrite assoc_set_keys. destruct (smem m (map fst l)) eqn:E; auto.
  apply (Permutation_NoDup (l := m :: map fst l)); [apply Permutation_cons_append|]. constructor; auto.
  intros H. apply smem_In in H. congruence.
Qed.
Lemma dict_update_NoDup u : forall d, NoDup (map fst d) -> NoDup (map fst (dict_update d u)).
Proof. unfold dict_update. induction u as [|p u IH]; intros d N; cbn; auto. apply IH. now apply assoc_set_NoDup. Qed.

(* lookups in an updated dictionary when the new entries are functional *)
Lemma dict_update_get u : forall d n,
  (forall v w, In (n, v) u -> In (n, w) u -> v = w) ->
  assoc n (dict_update d u) = match assoc n u with Some v => Some v | None => assoc n d end.
Proof.
  unfold dict_update. induction u as [|[m v] u IH]; intros d n F; auto. cbn [fold_left fst snd].
  rewrite IH by (intros v' w' Hv Hw; apply F; now right). rewrite assoc_cons, assoc_set_get.
  destruct (assoc n u) as [w|] eqn:E.
  - destruct (String.eqb m n) eqn:Q; auto. apply String.eqb_eq in Q. subst m. f_equal.
    apply F; [right; now apply assoc_In|now left].
  - destruct (String.eqb m n); auto.
Qed.
Lemma dict_update_keys u : forall d n, In n (map fst (dict_update d u)) <-> In n (map fst d) \/ In n (map fst u).
Proof.
  unfold dict_update. induction u as [|[m v] u IH]; intros d n; cbn [fold_left fst snd map]; [cbn; tauto|].
  rewrite IH, assoc_set_keys. cbn [In]. destruct (smem m (map fst d)) eqn:E.
  - apply smem_In in E. split; intros [H|H]; auto. destruct H as [<-|H]; auto.
  - rewrite in_app_iff. cbn. tauto.
Qed.

(* --- assigning fields --- *)

Lemma ft_new_spec t v : (ft_new t v = Ok v /\ accepts t v) \/ (ft_new t v = Err ValueError /\ ~ accepts t v).
Proof.
  unfold ft_new, accepts. destruct (ft_enum t) as [ms|].
  - destruct (zmem v ms) eqn:E; [left|right]; split; auto.
    + now apply zmem_In.
    + intros H. apply zmem_In in H. congruence.
  - destruct ((ft_min t <=? v) && (v <=? ft_max t)) eqn:E; [left|right]; split; auto; lia.
Qed.

Definition keys_are_fields (c : fmt) (kvs : list (string * Z)) : Prop :=
  forall n, In n (map fst kvs) -> class_field c n <> None.

Fixpoint set_all (h : header) (kvs : list (string * Z)) : res header :=
  match kvs with [] => Ok h | (n, v) :: kvs => do h' <- hdr_set h n v ;; set_all h' kvs end.

Lemma set_positional_all names : forall h args, set_positional h names args = set_all h (combine names args).
Proof.
  induction names as [|n names IH]; intros h [|v args]; cbn; auto. destruct (hdr_set h n v); cbn; auto.
Qed.

Lemma hdr_set_cls h n v h' : hdr_set h n v = Ok h' -> h_cls h' = h_cls h.
Proof.
  unfold hdr_set. destruct (class_field _ _) as [f|].
  - destruct (ft_new _ _); cbn; [|discriminate]. now injection 1 as <-.
  - now injection 1 as <-.
Qed.

Lemma set_all_spec kvs : forall h, keys_are_fields (h_cls h) kvs -> NoDup (map fst kvs) ->
  (exists h', set_all h kvs = Ok h' /\ h_cls h' = h_cls h /\ h_extra h' = h_extra h /\
     (forall n v, In (n, v) kvs -> exists f, class_field (h_cls h) n = Some f /\ accepts (fd_type f) v) /\
     (forall n, assoc n (h_vals h') = match assoc n kvs with Some v => Some v | None => assoc n (h_vals h) end)) \/
  (set_all h kvs = Err ValueError /\ exists n v f, In (n, v) kvs /\ class_field (h_cls h) n = Some f /\ ~ accepts (fd_type f) v).
Proof.
  induction kvs as [|[n v] kvs IH]; intros h K N; cbn [set_all].
  - left. exists h. split; auto. split; auto. split; auto. split; auto. intros ? ? [].
  - cbn [map fst] in *. inversion N as [|? ? N1 N2]; subst.
    unfold hdr_set. destruct (class_field (h_cls h) n) as [f|] eqn:E; [|exfalso; apply (K n); [now left|auto]].
    destruct (ft_new_spec (fd_type f) v) as [(-> & A)|(-> & A)]; cbn [bind].
    + set (h1 := mk_header (h_cls h) (assoc_set n v (h_vals h)) (h_extra h)).
      destruct (IH h1) as [(h' & E1 & C & X & F & V)|(E1 & n' & v' & f' & I & F & R)].
      * intros m Hm. apply K. now right.
      * auto.
      * left. exists h'. rewrite E1. split; auto. split; auto. split; auto. split.
        -- intros m w [Q|Q]; [|now apply F]. injection Q as -> ->. eauto.
        -- intros m. rewrite V, assoc_cons. cbn [h1 h_vals]. rewrite assoc_set_get.
           destruct (String.eqb n m) eqn:Q; auto. apply String.eqb_eq in Q. subst m.
           destruct (assoc n kvs) as [w|] eqn:Z; auto. exfalso. apply N1. apply assoc_In in Z. apply in_map_iff. now exists (n, w).
      * right. rewrite E1. split; auto. exists n', v', f'. split; [now right|auto].
    + right. split; auto. exists n, v, f. split; [now left|auto].
Qed.

Lemma set_keywords_all kvs : forall h, keys_are_fields (h_cls h) kvs -> set_keywords h kvs = set_all h kvs.
Proof.
  induction kvs as [|[n v] kvs IH]; intros h K; cbn [set_keywords set_all]; auto.
  assert (has_attr h n = true) as ->.
  { unfold has_attr. destruct (class_field (h_cls h) n) eqn:E; auto. exfalso. apply (K n); [now left|auto]. }
  destruct (hdr_set h n v) as [h'|] eqn:E; cbn [bind]; auto. apply IH. rewrite (hdr_set_cls _ _ _ _ E).
  intros m Hm. apply K. now right.
Qed.

(* keyword construction *)
Lemma hdr_init_kw c kvs : keys_are_fields c kvs -> NoDup (map fst kvs) ->
  (exists h, hdr_init c [] kvs = Ok h /\ h_cls h = c /\ h_extra h = [] /\
     (forall n v, In (n, v) kvs -> exists f, class_field c n = Some f /\ accepts (fd_type f) v) /\
     (forall n, assoc n (h_vals h) = assoc n kvs)) \/
  (hdr_init c [] kvs = Err ValueError /\ exists n v f, In (n, v) kvs /\ class_field c n = Some f /\ ~ accepts (fd_type f) v).
Proof.
  intros K N. unfold hdr_init. rewrite set_positional_all.
  replace (combine (ordered_field_names c) []) with (@nil (string * Z)) by (destruct (ordered_field_names c); auto).
  cbn [set_all bind]. rewrite set_keywords_all by exact K.
  destruct (set_all_spec kvs (mk_header c [] []) K N) as [(h & A)|A]; [left|right; exact A].
  exists h. destruct A as (A & B & C & D & E). split; auto. split; auto. split; auto. split; auto.
  intros n. rewrite E. now destruct (assoc n kvs).
Qed.

Lemma combine_keys {A B} (l : list A) (m : list B) : length l = length m -> map fst (combine l m) = l.
Proof. revert m; induction l as [|a l IH]; intros [|b m] H; cbn in *; auto; try lia. f_equal. apply IH. lia. Qed.

(* positional construction with one value per field *)
Lemma hdr_init_pos c vs : NoDup (ordered_field_names c) -> length vs = length (ordered_field_names c) ->
  (exists h, hdr_init c vs [] = Ok h /\ h_cls h = c /\ h_extra h = [] /\
     (forall n v, In (n, v) (combine (ordered_field_names c) vs) -> exists f, class_field c n = Some f /\ accepts (fd_type f) v) /\
     (forall n, assoc n (h_vals h) = assoc n (combine (ordered_field_names c) vs))) \/
  (hdr_init c vs [] = Err ValueError /\
     exists n v f, In (n, v) (combine (ordered_field_names c) vs) /\ class_field c n = Some f /\ ~ accepts (fd_type f) v).
Proof.
  intros N L. unfold hdr_init. rewrite set_positional_all.
  assert (Q : map fst (combine (ordered_field_names c) vs) = ordered_field_names c) by now rewrite combine_keys.
  set (kvs := combine _ vs) in *.
  destruct (set_all_spec kvs (mk_header c [] [])) as [(h & A & B & C & D & E)|(A & B)].
  - intros n Hn. rewrite Q in Hn. cbn [h_cls]. now apply ordered_names_In.
  - now rewrite Q.
  - left. exists h. rewrite A. cbn [bind set_keywords]. split; auto. split; auto. split; auto. split; auto.
    intros n. rewrite E. now destruct (assoc n kvs).
  - right. rewrite A. cbn [bind]. auto.
Qed.

(* --- packers --- *)

Definition good_fmt (c : fmt) : Prop := class_ok c /\ starts_ok c.

Lemma class_ok_levels c : class_ok c -> levels_ok c.
Proof. intros (A & _). exact A. Qed.

Lemma is_field_class c f : class_ok c -> is_field c f -> class_field c (fd_name f) = Some f.
Proof. intros K H. apply class_field_spec; auto using class_ok_levels. Qed.

Lemma make_packer_ok c e p : make_header_packer c e = Ok p -> exists d len,
  p = mk_packer c e (chunks_for 0 (items_of d) len) (map (fun g => map fd_name (snd g)) d)
        (forallb (fun names => zlen names =? 1) (map (fun g => map fd_name (snd g)) d)) /\
  compiled (class_fields c) (fmt_start c) (fmt_length c) d len /\
  ~ layout_bad (class_fields c) (fmt_start c) (fmt_length c) /\ ~ types_bad (class_fields c).
Proof.
  unfold make_header_packer. destruct (compile_cases c (fmt_start c) (fmt_length c)) as [(-> & _)|[(-> & _)|(d & len & -> & A & B & C)]];
    cbn [bind]; try discriminate.
  intros H. apply (f_equal (fun r => match r with Ok x => x | Err _ => p end)) in H. cbv beta iota in H. subst p.
  exists d, len. auto.
Qed.

(* value of a group in a buffer *)
Definition slice_value (e : endian) (buf : list Z) (o : Z) (ct : ctype) : Z :=
  unpack_int e ct (py_slice buf o (o + ctype_size ct)).

Definition field_value (c : fmt) (e : endian) (buf : list Z) (f : fieldd) : Z :=
  slice_value e buf (field_pos c f) (ft_ctype (fd_type f)).

Lemma skipn_0z {A} (l : list A) : skipn (Z.to_nat 0) l = l.
Proof. reflexivity. Qed.

Lemma struct_unpack_chunks e items len buf : laid_out 0 items len ->
  struct_unpack e (chunks_for 0 items len) buf =
  if zlen buf =? len then Ok (map (fun p => slice_value e buf (fst p) (snd p)) items) else Err StructError.
Proof.
  intros L. unfold struct_unpack. rewrite chunks_for_size by exact L. rewrite Z.sub_0_r.
  destruct (zlen buf =? len) eqn:E; auto. f_equal.
  rewrite <- (skipn_0z buf) at 1. rewrite (struct_items_chunks e items 0 len buf 0 L (Z.le_refl 0)).
  apply map_ext. intros [o ct]. cbn [fst snd]. unfold slice_value. now rewrite Z.sub_0_r, Z.add_0_l.
Qed.

(* groups and class fields *)
Section Packer.
  Variables (c : fmt) (d : list (Z * list fieldd)) (len : Z).
  Hypothesis K : class_ok c.
  Hypothesis C : compiled (class_fields c) (fmt_start c) (fmt_length c) d len.

  Lemma group_fields_are g f : In g d -> In f (snd g) -> is_field c f /\ fst g = field_pos c f.
  Proof.
    intros Hg Hf. destruct (compiled_group_field _ _ _ _ _ _ _ C Hg Hf) as (A & B). split; auto.
    apply class_fields_In; auto using class_ok_levels.
  Qed.
  Lemma field_group f : is_field c f -> exists g, In g d /\ In f (snd g) /\ fst g = field_pos c f.
  Proof. intros Hf. apply (compiled_group _ _ _ _ _ _ C). apply class_fields_In; auto using class_ok_levels. Qed.
  Lemma group_item g f : In g d -> In f (snd g) -> item_of g = (field_pos c f, ft_ctype (fd_type f)).
  Proof.
    intros Hg Hf. destruct (group_fields_are g f Hg Hf) as (A & B). unfold item_of. rewrite B. f_equal.
    pose proof C as ((_ & GF) & _). rewrite Forall_forall in GF. destruct (GF _ Hg) as (_ & _ & T).
    destruct g as [o [|f0 fs]]; [easy|]. cbn [snd] in *.
    assert (fd_type f0 = fd_type f); [|congruence]. apply (proj2 (proj2 K)).
    - apply (group_fields_are (o, f0 :: fs)); auto. now left.
    - auto.
    - apply T; auto. now left.
  Qed.
  Lemma group_nonempty g : In g d -> exists f r, snd g = f :: r.
  Proof.
    intros Hg. pose proof C as ((_ & GF) & _). rewrite Forall_forall in GF. destruct (GF _ Hg) as (N & _).
    destruct (snd g) as [|f r]; [easy|eauto].
  Qed.

  Definition alloc := map (fun g : Z * list fieldd => map fd_name (snd g)) d.

  (* a bijective packer has one name per offset *)
  Lemma bijective_singletons : forallb (fun names : list string => zlen names =? 1) alloc = true ->
    forall g, In g d -> exists f, snd g = [f].
  Proof.
    intros B g Hg. rewrite forallb_forall in B. unfold alloc in B.
    specialize (B (map fd_name (snd g)) (in_map (fun g => map fd_name (snd g)) d g Hg)). rewrite zlen_map in B.
    destruct (snd g) as [|f [|f' r]]; [discriminate|eauto|]. rewrite !zlen_cons in B. pose proof (zlen_nonneg r). lia.
  Qed.

  Lemma singletons_offsets : (forall g, In g d -> exists f, snd g = [f]) ->
    StronglySorted (fun a b => fd_offset a < fd_offset b) (sort_by off_leb (class_fields c)).
  Proof.
    intros H. pose proof C as ((GS & GF) & E & _). rewrite <- E. clear E. revert H GS GF. clear.
    induction d as [|[o fs] d' IH]; intros H GS GF; cbn [flat_map]; [constructor|].
    destruct (H _ (or_introl eq_refl)) as (f & E). cbn [snd] in *. subst fs. cbn [app].
    cbn [map fst] in GS. apply StronglySorted_inv in GS. destruct GS as (GS1 & GS2). inversion GF as [|? ? G1 G2]; subst.
    constructor; [apply IH; auto; intros; apply H; now right|].
    apply Forall_forall. intros f' Hf'. apply in_flat_map in Hf'. destruct Hf' as ((o' & fs') & I & J).
    rewrite Forall_forall in G2, GS2. destruct (G2 _ I) as (_ & A & _). specialize (A f' J). cbn in A.
    destruct G1 as (_ & A1 & _). specialize (A1 f (or_introl eq_refl)). cbn in A1.
    specialize (GS2 o'). rewrite in_map_iff in GS2. specialize (GS2 (ex_intro _ (o', fs') (conj eq_refl I))). lia.
  Qed.

  Lemma NoDup_map_le {A B} (g : A -> B) (l : list A) : NoDup (map g l) -> NoDup l.
  Proof. apply NoDup_map_inv. Qed.

  Lemma singletons_NoDup : (forall g, In g d -> exists f, snd g = [f]) -> NoDup (ordered_field_names c).
  Proof.
    intros H. pose proof (singletons_offsets H) as S. rewrite <- class_fields_names.
    assert (N : NoDup (class_fields c)).
    { apply (Permutation_NoDup (l := sort_by off_leb (class_fields c))).
      - symmetry. apply sort_by_perm || (apply Permutation_sym; apply sort_by_perm).
      - clear -S. induction S as [|a l S IH F]; constructor; auto. intros I. rewrite Forall_forall in F. specialize (F a I). lia. }
    assert (I : forall f, In f (class_fields c) -> is_field c f) by (intros; apply class_fields_In; auto using class_ok_levels).
    revert N I. generalize (class_fields c) as l. induction l as [|f l IH]; intros N I; cbn; constructor.
    - intros Q. apply in_map_iff in Q. destruct Q as (g & E & Hg). inversion N as [|? ? N1 N2]; subst. apply N1.
      replace f with g; auto. apply (is_field_name c); auto using class_ok_levels.
      + apply I. now right.
      + apply I. now left.
    - inversion N; subst. apply IH; auto. intros; apply I. now right.
  Qed.
End Packer.

(* the condition under which positional unpacking is right *)
Definition order_ok (c : fmt) : Prop := has_coincident c \/ declared_in_order c.

Lemma sorted_of_positions {A} (R : A -> A -> Prop) l :
  (forall l1 x l2 y l3, l = l1 ++ x :: l2 ++ y :: l3 -> R x y) -> StronglySorted R l.
Proof.
  induction l as [|a l IH]; intros H; constructor.
  - apply IH. intros l1 x l2 y l3 E. apply (H (a :: l1) x l2 y l3). now rewrite E.
  - apply Forall_forall. intros y Hy. apply in_split in Hy. destruct Hy as (l2 & l3 & E).
    apply (H [] a l2 y l3). now rewrite E.
Qed.
Lemma sorted_to_positions {A} (R : A -> A -> Prop) l l1 x l2 y l3 :
  StronglySorted R l -> l = l1 ++ x :: l2 ++ y :: l3 -> R x y.
Proof.
  intros S ->. apply StronglySorted_app_inv in S. destruct S as (_ & S & _).
  apply StronglySorted_inv in S. destruct S as (_ & S). rewrite Forall_forall in S. apply S.
  apply in_or_app. right. now left.
Qed.

Lemma map_app_inv {A B} (g : A -> B) l m1 m2 : map g l = m1 ++ m2 -> exists l1 l2, l = l1 ++ l2 /\ map g l1 = m1 /\ map g l2 = m2.
Proof.
  revert l; induction m1 as [|b m1 IH]; intros l H; [exists [], l; auto|].
  destruct l as [|a l]; [discriminate|]. cbn in H. injection H as <- H. apply IH in H. destruct H as (l1 & l2 & -> & <- & <-).
  exists (a :: l1), l2. auto.
Qed.

Lemma declared_sorted c : class_ok c -> declared_in_order c ->
  StronglySorted (fun a b => fd_offset a < fd_offset b) (class_fields c).
Proof.
  intros K D. apply sorted_of_positions. intros l1 x l2 y l3 E.
  assert (F : forall f, In f (class_fields c) -> is_field c f) by (intros; apply class_fields_In; auto using class_ok_levels).
  apply (D (map fd_name l1) (fd_name x) (map fd_name l2) (fd_name y) (map fd_name l3)); auto.
  - change (flat_map _ (fmt_levels c)) with (ordered_field_names c). rewrite <- class_fields_names, E.
    now rewrite map_app, map_cons, map_app, map_cons.
  - apply F. rewrite E. apply in_or_app. right. now left.
  - apply F. rewrite E. apply in_or_app. right. right. apply in_or_app. right. now left.
Qed.

(* with distinct offsets, no declarations coincide *)
Lemma coincident_not_sorted c : class_ok c -> has_coincident c ->
  NoDup (map fd_offset (class_fields c)) -> False.
Proof.
  intros K (ns1 & n1 & ns2 & n2 & ns3 & f1 & f2 & E & F1 & E1 & F2 & E2 & O) N.
  change (flat_map _ (fmt_levels c)) with (ordered_field_names c) in E. rewrite <- class_fields_names in E.
  apply map_app_inv in E. destruct E as (l1 & m1 & E & _ & Q). destruct m1 as [|x m1]; [discriminate|]. cbn in Q.
  injection Q as Q1 Q. apply map_app_inv in Q. destruct Q as (l2 & m2 & -> & _ & Q). destruct m2 as [|y l3]; [discriminate|].
  cbn in Q. injection Q as Q2 _.
  assert (F : forall f, In f (class_fields c) -> is_field c f) by (intros; apply class_fields_In; auto using class_ok_levels).
  assert (x = f1).
  { apply (is_field_name c); auto using class_ok_levels; [|congruence]. apply F. rewrite E. apply in_or_app. right. now left. }
  assert (y = f2).
  { apply (is_field_name c); auto using class_ok_levels; [|congruence]. apply F. rewrite E. apply in_or_app. right. right.
    apply in_or_app. right. now left. }
  subst x y. rewrite E, map_app, map_cons, map_app, map_cons in N. apply NoDup_remove_2 in N. apply N. rewrite O.
  apply in_or_app. right. apply in_or_app. right. now left.
Qed.

Lemma hdr_get_field h f : class_ok (h_cls h) -> is_field (h_cls h) f ->
  hdr_get h (fd_name f) = Ok (match assoc (fd_name f) (h_vals h) with Some v => v | None => fd_default f end).
Proof.
  intros K H. unfold hdr_get. rewrite (is_field_class _ _ K H). now destruct (assoc _ _).
Qed.

Lemma map_flat_singletons {A B} (h : A -> B) (d : list (Z * list A)) : (forall g, In g d -> exists f, snd g = [f]) ->
  flat_map (fun g => map h (snd g)) d = map h (flat_map snd d).
Proof.
  induction d as [|g d IH]; intros H; auto. cbn [flat_map]. rewrite map_app. f_equal. apply IH. intros; apply H. now right.
Qed.

Lemma combine_map_both {A B C} (f : A -> B) (g : A -> C) l : combine (map f l) (map g l) = map (fun x => (f x, g x)) l.
Proof. induction l; cbn; auto. now f_equal. Qed.

(* Unpacking: the value of each field is the one at its place. *)
Lemma unpack_spec c e p buf : class_ok c -> starts_ok c -> order_ok c -> make_header_packer c e = Ok p ->
  exists len, (match fmt_length c with Some n => len = n | None => exists f, is_field c f /\ len = field_pos c f + field_size f end) /\
  (forall f, is_field c f -> 0 <= field_pos c f /\ field_pos c f + field_size f <= len) /\
  ((exists h, pk_unpack p buf = Ok h /\ h_cls h = c /\ h_extra h = [] /\ zlen buf = len /\
      forall f, is_field c f -> hdr_get h (fd_name f) = Ok (field_value c e buf f) /\ accepts (fd_type f) (field_value c e buf f)) \/
   (pk_unpack p buf = Err ValueError /\
      (zlen buf <> len \/ exists f, is_field c f /\ ~ accepts (fd_type f) (field_value c e buf f)))).
Proof.
  intros K S O M. destruct (make_packer_ok _ _ _ M) as (d & len & -> & C & LB & TB). clear M.
  assert (FI : forall f, In f (class_fields c) <-> is_field c f) by (intros; apply class_fields_In; auto using class_ok_levels).
  assert (L : laid_out 0 (items_of d) len).
  { apply (compiled_laid_out _ _ _ _ _ C).
    - intros f Hf. apply S. now apply FI.
    - intros E. apply TB. now left. }
  exists len. split; [|split].
  { destruct C as (_ & _ & _ & _ & Q). destruct (fmt_length c); auto. destruct Q as (f & Hf & Q). exists f. split; [now apply FI|auto]. }
  { intros f Hf. pose proof (S f Hf). destruct C as (_ & _ & _ & Q & _). specialize (Q f ltac:(now apply FI)). unfold field_pos. lia. }
  unfold pk_unpack. cbn [pk_endian pk_chunks pk_bijective pk_cls pk_alloc]. rewrite (struct_unpack_chunks e _ _ buf L).
  destruct (zlen buf =? len) eqn:El; [|right; split; auto; left; lia].
  set (vals := map _ (items_of d)).
  assert (EV : vals = map (fun g => slice_value e buf (fst (item_of g)) (snd (item_of g))) d) by (unfold vals, items_of; now rewrite map_map).
  assert (GV : forall g f, In g d -> In f (snd g) -> slice_value e buf (fst (item_of g)) (snd (item_of g)) = field_value c e buf f).
  { intros g f Hg Hf. rewrite (group_item c d len K C g f Hg Hf). reflexivity. }
  destruct (forallb _ _) eqn:B.
  - pose proof (bijective_singletons d B) as Sing. pose proof (singletons_offsets c d len C Sing) as SO.
    assert (D : declared_in_order c).
    { destruct O as [O|O]; auto. exfalso. apply (coincident_not_sorted c K O).
      apply (Permutation_NoDup (l := map fd_offset (sort_by off_leb (class_fields c)))).
      - apply Permutation_map. apply sort_by_perm || (apply Permutation_sym; apply sort_by_perm).
      - apply StronglySorted_NoDup. exact (proj1 (StronglySorted_map fd_offset Z.lt _) SO). }
    assert (ID : sort_by off_leb (class_fields c) = class_fields c).
    { apply sort_by_id. eapply StronglySorted_weaken; [|apply declared_sorted; auto]. intros x y H. unfold off_leb. cbn in *. lia. }
    pose proof C as (_ & CF & _). rewrite ID in CF.
    assert (EV2 : vals = map (field_value c e buf) (class_fields c)).
    { rewrite EV, <- CF, <- (map_flat_singletons _ d Sing). clear -Sing GV.
      induction d as [|g d' IH]; auto. cbn [map flat_map]. destruct (Sing g (or_introl eq_refl)) as (f & E). rewrite E. cbn [map app].
      f_equal; [apply GV; [now left|rewrite E; now left]|]. apply IH; intros; [apply GV|apply Sing]; auto; now right. }
    destruct (hdr_init_pos c vals) as [(h & Eh & Hc & Hx & A & V)|(Eh & n & v & f & I & F & R)].
    + apply (singletons_NoDup c d len K C Sing).
    + rewrite EV2, <- class_fields_names. now rewrite !map_length.
    + left. exists h. split; auto. split; auto. split; auto. split; [lia|]. intros f Hf.
      assert (I : In (fd_name f, field_value c e buf f) (combine (ordered_field_names c) vals)).
      { rewrite EV2, <- class_fields_names, combine_map_both. apply in_map_iff. exists f. split; auto. now apply FI. }
      destruct (A _ _ I) as (f' & F' & A'). rewrite (is_field_class c f K Hf) in F'. injection F' as <-. split; auto.
      rewrite (hdr_get_field h f) by now rewrite Hc. rewrite V. erewrite assoc_NoDup; [reflexivity| |exact I].
      rewrite EV2, <- class_fields_names, combine_keys by now rewrite !map_length.
      rewrite class_fields_names. apply (singletons_NoDup c d len K C Sing).
    + right. split; auto. right. exists f.
      rewrite EV2, <- class_fields_names, combine_map_both in I. apply in_map_iff in I. destruct I as (f' & Q & I). injection Q as <- <-.
      apply FI in I. rewrite (is_field_class c f' K I) in F. injection F as ->. auto.
  - clear B. set (pairs := flat_map _ (combine _ vals)).
    assert (P : forall n v, In (n, v) pairs <-> exists f, is_field c f /\ fd_name f = n /\ v = field_value c e buf f).
    { intros n v. unfold pairs. rewrite EV, combine_map_both. rewrite flat_map_concat_map, map_map, <- flat_map_concat_map, in_flat_map.
      cbn [fst snd]. split.
      - intros (g & Hg & H). apply in_map_iff in H. destruct H as (n' & Q & H). apply pair_equal_spec in Q; destruct Q as (-> & <-).
        apply in_map_iff in H. destruct H as (f & <- & Hf). exists f. rewrite (GV g f Hg Hf). split; auto.
        apply (group_fields_are c d len K C g f Hg Hf).
      - intros (f & Hf & <- & ->). destruct (field_group c d len K C f Hf) as (g & Hg & I & _). exists g. split; auto.
        apply in_map_iff. exists (fd_name f). rewrite (GV g f Hg I). split; auto. now apply in_map. }
    assert (FU : forall n v w, In (n, v) pairs -> In (n, w) pairs -> v = w).
    { intros n v w Hv Hw. apply P in Hv, Hw. destruct Hv as (f & Hf & E1 & ->), Hw as (g & Hg & E2 & ->).
      replace g with f; auto. apply (is_field_name c); auto using class_ok_levels; congruence. }
    assert (DU : forall n, assoc n (dict_update [] pairs) = assoc n pairs).
    { intros n. rewrite dict_update_get by apply FU. now destruct (assoc n pairs). }
    assert (ND : NoDup (map fst (dict_update [] pairs))) by (apply dict_update_NoDup; constructor).
    assert (DI : forall n v, In (n, v) (dict_update [] pairs) -> In (n, v) pairs).
    { intros n v H. apply assoc_In. rewrite <- DU. now apply assoc_NoDup. }
    destruct (hdr_init_kw c (dict_update [] pairs)) as [(h & Eh & Hc & Hx & A & V)|(Eh & n & v & f & I & F & R)]; auto.
    + intros n Hn. apply in_map_iff in Hn. destruct Hn as ((n' & v) & <- & H). apply DI, P in H. destruct H as (f & Hf & <- & _).
      cbn [fst]. rewrite (is_field_class c f K Hf). discriminate.
    + left. exists h. split; auto. split; auto. split; auto. split; [lia|]. intros f Hf.
      assert (I : In (fd_name f, field_value c e buf f) pairs) by (apply P; eauto).
      assert (E : assoc (fd_name f) pairs = Some (field_value c e buf f)).
      { destruct (assoc (fd_name f) pairs) as [v|] eqn:E.
        - f_equal. apply assoc_In in E. now apply (FU (fd_name f)).
        - exfalso. apply assoc_None in E. apply E. apply in_map_iff. eexists. split; [|exact I]. reflexivity. }
      split; [rewrite (hdr_get_field h f) by (now rewrite Hc); now rewrite V, DU, E|].
      destruct (A (fd_name f) (field_value c e buf f)) as (f' & F' & A').
      { apply assoc_In. now rewrite DU. }
      rewrite (is_field_class c f K Hf) in F'. now injection F' as <-.
    + right. split; auto. right. apply DI, P in I. destruct I as (f' & Hf' & <- & ->). rewrite (is_field_class c f' K Hf') in F.
      injection F as <-. eauto.
Qed.

(* --- packing --- *)

Lemma map_res_ok {A B} (g : A -> res B) (h : A -> B) l : (forall x, In x l -> g x = Ok (h x)) -> map_res g l = Ok (map h l).
Proof.
  induction l as [|a l IH]; intros H; auto. cbn [map_res map]. rewrite (H a (or_introl eq_refl)). cbn [bind].
  rewrite IH by (intros; apply H; now right). reflexivity.
Qed.

Definition head_val (val : fieldd -> Z) (g : Z * list fieldd) : Z := match snd g with f :: _ => val f | [] => 0 end.

Lemma check_coincident_spec h val (d : list (Z * list fieldd)) :
  (forall g f, In g d -> In f (snd g) -> hdr_get h (fd_name f) = Ok (val f)) ->
  (check_coincident h (map (fun g => map fd_name (snd g)) d) = Ok tt /\
     forall g f f', In g d -> In f (snd g) -> In f' (snd g) -> val f = val f') \/
  (check_coincident h (map (fun g => map fd_name (snd g)) d) = Err ValueError /\
     exists g f f', In g d /\ In f (snd g) /\ In f' (snd g) /\ val f <> val f').
Proof.
  induction d as [|g d IH]; intros H; cbn [map check_coincident].
  - left. split; auto. intros ? ? ? [].
  - assert (E : map_res (hdr_get h) (map fd_name (snd g)) = Ok (map val (snd g))).
    { assert (Hg : forall f, In f (snd g) -> hdr_get h (fd_name f) = Ok (val f)) by (intros; apply (H g); auto; now left).
      revert Hg. generalize (snd g) as l. induction l as [|f l IHl]; intros Hg; auto. cbn [map map_res].
      rewrite (Hg f (or_introl eq_refl)). cbn [bind]. rewrite IHl by (intros; apply Hg; now right). reflexivity. }
    rewrite E. cbn [bind]. destruct (all_equal (map val (snd g))) eqn:A.
    + rewrite all_equal_spec in A. destruct IH as [(-> & Q)|(-> & g' & f & f' & Hg & Q)].
      * intros; apply (H g0); auto. now right.
      * left. split; auto. intros g' f f' [<-|Hg]; [intros; apply A; now apply in_map|now apply Q].
      * right. split; auto. exists g', f, f'. split; [now right|auto].
    + right. split; auto.
      assert (N : ~ (forall f f', In f (snd g) -> In f' (snd g) -> val f = val f')).
      { intros Q. assert (all_equal (map val (snd g)) = true); [|congruence]. apply all_equal_spec.
        intros x y Hx Hy. apply in_map_iff in Hx, Hy. destruct Hx as (f & <- & Hf), Hy as (f' & <- & Hf'). now apply Q. }
      clear -N. assert (Q : exists f f', In f (snd g) /\ In f' (snd g) /\ val f <> val f').
      { destruct (snd g) as [|f0 l]; [exfalso; apply N; intros ? ? []|].
        destruct (forallb (fun f => val f =? val f0) l) eqn:B.
        - exfalso. apply N. rewrite forallb_forall in B.
          assert (forall f, In f (f0 :: l) -> val f = val f0).
          { intros f [->|Hf]; auto. specialize (B f Hf). cbn in B. lia. }
          intros f f' Hf Hf'. now rewrite (H f Hf), (H f' Hf').
        - assert (exists f, In f l /\ (val f =? val f0) = false).
          { clear -B. induction l as [|a l IH]; [discriminate|]. cbn in B. destruct (val a =? val f0) eqn:E.
            - destruct IH as (f & I & Q); auto. exists f. split; auto. now right.
            - exists a. split; auto. now left. }
          destruct H as (f & Hf & Q). exists f, f0. split; [now right|]. split; [now left|]. lia. }
      destruct Q as (f & f' & Q). exists g, f, f'. split; [now left|auto].
Qed.

Lemma pack_spec c e p h val : class_ok c -> starts_ok c -> make_header_packer c e = Ok p -> isinstance h c = true ->
  (forall f, is_field c f -> hdr_get h (fd_name f) = Ok (val f)) ->
  exists len, (match fmt_length c with Some n => len = n | None => exists f, is_field c f /\ len = field_pos c f + field_size f end) /\
  (forall f, is_field c f -> 0 <= field_pos c f /\ field_pos c f + field_size f <= len) /\
  ((exists buf, pk_pack p h = Ok buf /\ zlen buf = len /\ all_bytes buf /\
      (forall f g, is_field c f -> is_field c g -> fd_offset f = fd_offset g -> val f = val g) /\
      (forall f, is_field c f -> in_ctype (ft_ctype (fd_type f)) (val f) /\ stored_at e buf (field_pos c f) (field_size f) (val f)) /\
      (forall i, 0 <= i < len -> ~ covered c i -> byte_at buf i = 0)) \/
   (pk_pack p h = Err ValueError /\ exists f g, is_field c f /\ is_field c g /\ fd_offset f = fd_offset g /\ val f <> val g) \/
   (pk_pack p h = Err StructError /\
      (forall f g, is_field c f -> is_field c g -> fd_offset f = fd_offset g -> val f = val g) /\
      exists f, is_field c f /\ ~ in_ctype (ft_ctype (fd_type f)) (val f))).
Proof.
  intros K S M I V. destruct (make_packer_ok _ _ _ M) as (d & len & -> & C & LB & TB). clear M.
  assert (FI : forall f, In f (class_fields c) <-> is_field c f) by (intros; apply class_fields_In; auto using class_ok_levels).
  assert (L : laid_out 0 (items_of d) len).
  { apply (compiled_laid_out _ _ _ _ _ C).
    - intros f Hf. apply S. now apply FI.
    - intros E. apply TB. now left. }
  exists len. split; [|split].
  { destruct C as (_ & _ & _ & _ & Q). destruct (fmt_length c); auto. destruct Q as (f & Hf & Q). exists f. split; [now apply FI|auto]. }
  { intros f Hf. pose proof (S f Hf). destruct C as (_ & _ & _ & Q & _). specialize (Q f ltac:(now apply FI)). unfold field_pos. lia. }
  unfold pk_pack. cbn [pk_endian pk_chunks pk_bijective pk_cls pk_alloc]. rewrite I. cbn [negb].
  assert (GV : forall g f, In g d -> In f (snd g) -> hdr_get h (fd_name f) = Ok (val f)).
  { intros g f Hg Hf. apply V. apply (group_fields_are c d len K C g f Hg Hf). }
  assert (EQ : (forall g f f', In g d -> In f (snd g) -> In f' (snd g) -> val f = val f') <->
    (forall f g, is_field c f -> is_field c g -> fd_offset f = fd_offset g -> val f = val g)).
  { split.
    - intros H f f' Hf Hf' E. destruct (field_group c d len K C f Hf) as (g & Hg & J & P), (field_group c d len K C f' Hf') as (g' & Hg' & J' & P').
      assert (g' = g).
      { apply (NoDup_map_inj fst d); auto; [|unfold field_pos in *; congruence]. apply StronglySorted_NoDup. apply C. }
      subst g'. now apply (H g).
    - intros H g f f' Hg Hf Hf'. destruct (group_fields_are c d len K C g f Hg Hf) as (A & B), (group_fields_are c d len K C g f' Hg Hf') as (A' & B').
      apply H; auto. unfold field_pos in *. lia. }
  assert (CC : (if forallb (fun names => zlen names =? 1) (map (fun g => map fd_name (snd g)) d) then Ok tt
                else check_coincident h (map (fun g => map fd_name (snd g)) d)) =
               check_coincident h (map (fun g => map fd_name (snd g)) d)).
  { destruct (forallb _ _) eqn:B; auto. destruct (check_coincident_spec h val d GV) as [(-> & _)|(_ & g & f & f' & Hg & Hf & Hf' & N)]; auto.
    destruct (bijective_singletons d B g Hg) as (f0 & E). rewrite E in Hf, Hf'. destruct Hf as [<-|[]], Hf' as [<-|[]]. now exfalso. }
  rewrite CC. clear CC.
  destruct (check_coincident_spec h val d GV) as [(-> & A)|(-> & g & f & f' & Hg & Hf & Hf' & N)]; cbn [bind].
  2:{ right. left. split; auto. destruct (group_fields_are c d len K C g f Hg Hf) as (A & B), (group_fields_are c d len K C g f' Hg Hf') as (A' & B').
      exists f, f'. split; auto. split; auto. split; auto. unfold field_pos in *. lia. }
  assert (MV : map_res (first_value h) (map (fun g => map fd_name (snd g)) d) = Ok (map (head_val val) d)).
  { assert (Q : forall g, In g d -> first_value h (map fd_name (snd g)) = Ok (head_val val g)).
    { intros g Hg. destruct (group_nonempty c d len C g Hg) as (f & r & E). unfold first_value, head_val. rewrite E. cbn [map bind].
      apply (GV g); auto. rewrite E. now left. }
    clear -Q. induction d as [|g d' IH]; auto. cbn [map map_res]. rewrite (Q g (or_introl eq_refl)). cbn [bind].
    rewrite IH by (intros; apply Q; now right). reflexivity. }
  rewrite MV. cbn [bind].
  assert (CI : forall o ct v, In ((o, ct), v) (combine (items_of d) (map (head_val val) d)) <->
     exists f, is_field c f /\ o = field_pos c f /\ ct = ft_ctype (fd_type f) /\ v = val f).
  { intros o ct v. unfold items_of. rewrite combine_map_both, in_map_iff. split.
    - intros (g & E & Hg). apply pair_equal_spec in E. destruct E as (E1 & E2).
      destruct (group_nonempty c d len C g Hg) as (f & r & Eg). assert (Hf : In f (snd g)) by (rewrite Eg; now left).
      rewrite (group_item c d len K C g f Hg Hf) in E1. apply pair_equal_spec in E1. destruct E1 as (<- & <-).
      exists f. split; [apply (group_fields_are c d len K C g f Hg Hf)|]. split; auto. split; auto. rewrite <- E2.
      unfold head_val. now rewrite Eg.
    - intros (f & Hf & -> & -> & ->). destruct (field_group c d len K C f Hf) as (g & Hg & J & _). exists g. split; auto.
      rewrite (group_item c d len K C g f Hg J). f_equal. destruct (group_nonempty c d len C g Hg) as (f0 & r & Eg).
      unfold head_val. rewrite Eg. apply (A g); auto. rewrite Eg. now left. }
  destruct (struct_pack_chunks e (items_of d) 0 len (map (head_val val) d) L) as
    [(buf & E & El & Hz & Hb & Hs & Hg)|(E & Bad)]; rewrite E.
  - left. exists buf. split; auto. split; [lia|]. split; auto. split; [now apply EQ|]. split.
    + intros f Hf. destruct (Hs (field_pos c f) (ft_ctype (fd_type f)) (val f)) as (Q1 & Q2); [apply CI; eauto|].
      rewrite Z.sub_0_r in Q2. split; auto; now rewrite <- size_of_field.
    + intros i Hi NC. apply Hg; [lia|]. intros o ct Ho Q. apply NC. apply in_map_iff in Ho. destruct Ho as (g & Eg & Ig).
      destruct (group_nonempty c d len C g Ig) as (f & r & Er). assert (Hf : In f (snd g)) by (rewrite Er; now left).
      rewrite (group_item c d len K C g f Ig Hf) in Eg. apply pair_equal_spec in Eg. destruct Eg as (<- & <-).
      exists f. split; [apply (group_fields_are c d len K C g f Ig Hf)|]. rewrite <- size_of_field. unfold size_of. lia.
  - right. right. split; auto. split; [now apply EQ|]. destruct Bad as [Bad|(o & ct & v & J & N)].
    + exfalso. apply Bad. unfold items_of. now rewrite !map_length.
    + apply CI in J. destruct J as (f & Hf & -> & -> & ->). eauto.
Qed.

Lemma isinstance_self h : (exists f, is_field (h_cls h) f) -> isinstance h (h_cls h) = true.
Proof.
  intros (f & ls1 & l & ls2 & E & _). unfold isinstance, fmt_name. apply smem_In. rewrite E. 
  assert (Q : ls1 ++ l :: ls2 <> []) by (destruct ls1; discriminate).
  destruct (exists_last Q) as (x & y & Ex). rewrite Ex. rewrite last_last. apply in_map. apply in_or_app. right. now left.
Qed.

Lemma packer_has_field c e p : class_ok c -> make_header_packer c e = Ok p -> exists f, is_field c f.
Proof.
  intros K M. destruct (make_packer_ok _ _ _ M) as (d & len & _ & C & LB & TB). 
  destruct (class_fields c) as [|f fs] eqn:E; [exfalso; apply TB; now left|]. exists f.
  apply class_fields_In; auto using class_ok_levels. rewrite E. now left.
Qed.
