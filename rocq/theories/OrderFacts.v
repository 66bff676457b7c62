(* Proofs about formats whose fields are not declared in the order of their places. *)
From Coq Require Import String ZArith List Bool Lia ZifyBool ZifyNat Sorted Permutation.
From Verif Require Import Py Util Packing PyFacts Spec_Util UtilFacts Spec_Packing PackFacts CompileFacts HeaderFacts PackingFacts Formats FormatFacts Spec_Order.
Import ListNotations.
Open Scope Z_scope.

Lemma declared_is c declared : levels_ok c -> declared_as c declared -> declared = class_fields c.
Proof.
  intros K (N & F). change (flat_map _ (fmt_levels c)) with (ordered_field_names c) in N. rewrite <- class_fields_names in N.
  assert (G : forall f, In f (class_fields c) -> is_field c f) by (intros; apply class_fields_In; auto).
  revert F G N. generalize (class_fields c). induction declared as [|f l IH]; intros [|g m] F G N; try discriminate; auto.
  injection N as N1 N2. f_equal; [apply (is_field_name c); auto; [apply F|apply G]; now left|].
  apply IH; auto; intros; [apply F|apply G]; now right.
Qed.

Lemma sorted_perm_unique l : forall m, StronglySorted (fun f g => fd_offset f < fd_offset g) l -> StronglySorted (fun f g => fd_offset f < fd_offset g) m ->
  Permutation l m -> l = m.
Proof.
  induction l as [|a l IH]; intros m S1 S2 P; [now apply Permutation_nil in P|].
  destruct m as [|b m]; [apply Permutation_sym, Permutation_nil in P; discriminate|].
  inversion S1 as [|? ? S1' F1]; inversion S2 as [|? ? S2' F2]; subst. rewrite Forall_forall in F1, F2.
  assert (a = b).
  { assert (A : In a (b :: m)) by (eapply Permutation_in; [exact P|now left]).
    assert (B : In b (a :: l)) by (eapply Permutation_in; [apply Permutation_sym, P|now left]).
    destruct A as [A|A]; [auto|]. destruct B as [B|B]; [auto|]. specialize (F1 b B). specialize (F2 a A). lia. }
  subst b. f_equal. apply IH; auto. now apply Permutation_cons_inv in P.
Qed.

Lemma off_sorted_strict l m : Permutation l m -> StronglySorted (fun f g => fd_offset f < fd_offset g) m -> sort_by off_leb l = m.
Proof.
  intros P S. assert (Q : Permutation (sort_by off_leb l) m).
  { eapply Permutation_trans; [|exact P]. apply sort_by_perm || (apply Permutation_sym, sort_by_perm). }
  apply sorted_perm_unique; auto.
  assert (ND : NoDup (map fd_offset (sort_by off_leb l))).
  { eapply Permutation_NoDup; [apply Permutation_map, Permutation_sym, Q|].
    apply (StronglySorted_NoDup (map fd_offset m)). exact (proj1 (StronglySorted_map fd_offset Z.lt _) S). }
  pose proof (off_sorted l) as O. revert O ND. generalize (sort_by off_leb l). induction 1 as [|a k O IH F]; intros N; [constructor|].
  cbn [map] in N. inversion N as [|? ? N1 N2]; subst. constructor; auto. rewrite Forall_forall in *. intros x X. specialize (F x X).
  assert (fd_offset a <> fd_offset x); [|lia]. intros E. apply N1. rewrite E. now apply in_map.
Qed.

Lemma unpack_order c e p buf declared placed : class_ok c -> starts_ok c -> declared_as c declared -> placed_as declared placed ->
  make_header_packer c e = Ok p -> all_bytes buf ->
  (exists h, pk_unpack p buf = Ok h /\ header_length c (zlen buf) /\ h_cls h = c /\ read_in_order c e buf declared placed h) \/
  (pk_unpack p buf = Err ValueError /\ (~ header_length c (zlen buf) \/ refused_in_order c e buf declared placed)).
Proof.
  intros K S DE (PE & PS) M BY. pose proof (declared_is c declared (class_ok_levels _ K) DE) as ->. pose proof (off_sorted_strict _ _ PE PS) as SB.
  destruct (make_packer_ok _ _ _ M) as (d & len & -> & C & LB & TB). clear M.
  assert (FI : forall f, In f (class_fields c) <-> is_field c f) by (intros; apply class_fields_In; auto using class_ok_levels).
  assert (L : laid_out 0 (items_of d) len).
  { apply (compiled_laid_out _ _ _ _ _ C).
    - intros f Hf. apply S. now apply FI.
    - intros E. apply TB. now left. }
  assert (L1 : match fmt_length c with Some n => len = n | None => exists f, is_field c f /\ len = field_pos c f + field_size f end).
  { destruct C as (_ & _ & _ & _ & Q). destruct (fmt_length c); auto. destruct Q as (f & Hf & Q). exists f. split; [now apply FI|auto]. }
  assert (L2 : forall f, is_field c f -> 0 <= field_pos c f /\ field_pos c f + field_size f <= len).
  { intros f Hf. pose proof (S f Hf). destruct C as (_ & _ & _ & Q & _). specialize (Q f ltac:(now apply FI)). unfold field_pos. lia. }
  pose proof (length_of c len L1 L2) as HL.
  unfold pk_unpack. cbn [pk_endian pk_chunks pk_bijective pk_cls pk_alloc]. rewrite (struct_unpack_chunks e _ _ buf L).
  destruct (zlen buf =? len) eqn:El; [|right; split; auto; left; intros Q; pose proof (header_length_unique c _ _ HL Q); lia].
  assert (ZL : zlen buf = len) by lia.
  assert (FS : forall f, is_field c f -> value_at c e buf f (field_value c e buf f)).
  { intros f Hf. destruct (L2 f Hf). unfold value_at. rewrite <- size_of_field in *. rewrite <- ZL in *. apply slice_stored; auto. }
  set (vals := map _ (items_of d)).
  assert (EV : vals = map (fun g => slice_value e buf (fst (item_of g)) (snd (item_of g))) d) by (unfold vals, items_of; now rewrite map_map).
  assert (GV : forall g f, In g d -> In f (snd g) -> slice_value e buf (fst (item_of g)) (snd (item_of g)) = field_value c e buf f).
  { intros g f Hg Hf. rewrite (group_item c d len K C g f Hg Hf). reflexivity. }
  assert (CF : flat_map snd d = placed) by (pose proof C as (_ & CF & _); now rewrite CF).
  assert (Sing : forall g, In g d -> exists f, snd g = [f]).
  { pose proof C as ((_ & GF) & _). rewrite <- CF in PS. clear - PS GF. intros g G.
    rewrite Forall_forall in GF. destruct (GF g G) as (N & O & _). destruct (snd g) as [|a [|b l]] eqn:E; [congruence|eauto|]. exfalso.
    apply in_split in G. destruct G as (d1 & d2 & ->). rewrite flat_map_app in PS. cbn [flat_map] in PS. rewrite E in PS.
    clear - PS O. induction (flat_map snd d1) as [|x k IH]; cbn in PS; inversion PS as [|? ? PS' F]; subst; auto.
    rewrite Forall_forall in F. specialize (F b (or_introl eq_refl)). cbn in F. pose proof (O a (or_introl eq_refl)). pose proof (O b (or_intror (or_introl eq_refl))). lia. }
  assert (B : forallb (fun names : list string => zlen names =? 1) (map (fun g => map fd_name (snd g)) d) = true).
  { apply forallb_forall. intros ns I. apply in_map_iff in I. destruct I as (g & <- & G). destruct (Sing g G) as (f & ->). reflexivity. }
  rewrite B.
  assert (EV2 : vals = map (field_value c e buf) placed).
  { rewrite EV, <- CF, <- (map_flat_singletons _ d Sing). clear -Sing GV.
    induction d as [|g d' IH]; auto. cbn [map flat_map]. destruct (Sing g (or_introl eq_refl)) as (f & E). rewrite E. cbn [map app].
    f_equal; [apply GV; [now left|rewrite E; now left]|]. apply IH; intros; [apply GV|apply Sing]; auto; now right. }
  pose proof (singletons_NoDup c d len K C Sing) as ND.
  assert (LL : length (class_fields c) = length placed) by now apply Permutation_length.
  assert (PF : forall g, In g placed -> is_field c g). { intros g G. apply FI. eapply Permutation_in; [apply Permutation_sym; exact PE|exact G]. }
  assert (CN : combine (ordered_field_names c) vals = map (fun q => (fd_name (fst q), field_value c e buf (snd q))) (combine (class_fields c) placed)).
  { rewrite EV2, <- class_fields_names. clear. revert placed. induction (class_fields c) as [|f l IH]; intros [|g m]; cbn; auto. now f_equal. }
  destruct (hdr_init_pos c vals ND) as [(h & Eh & Hc & Hx & A & V)|(Eh & n & v & f & I & F & R)].
  - rewrite EV2, <- class_fields_names, !map_length. auto.
  - left. exists h. split; auto. split; [now rewrite ZL|]. split; auto.
    assert (Q : forall f g, In (f, g) (combine (class_fields c) placed) ->
      exists v, value_at c e buf g v /\ accepts (fd_type f) v /\ hdr_get h (fd_name f) = Ok v).
    { intros f g I. assert (I' : In (fd_name f, field_value c e buf g) (combine (ordered_field_names c) vals)).
      { rewrite CN. apply in_map_iff. exists (f, g). auto. }
      assert (Hf : is_field c f) by (apply FI; eapply in_combine_l; exact I).
      exists (field_value c e buf g). split; [apply FS, PF; eapply in_combine_r; exact I|].
      destruct (A _ _ I') as (f' & F' & A'). rewrite (is_field_class c f K Hf) in F'. injection F' as <-. split; auto.
      rewrite (hdr_get_field h f) by now rewrite Hc. rewrite V. erewrite assoc_NoDup; [reflexivity| |exact I'].
      rewrite combine_keys; [exact ND|]. rewrite EV2, <- class_fields_names, !map_length. auto. }
    clear - Q LL. revert placed LL Q. induction (class_fields c) as [|f l IH]; intros [|g m] LL Q; try discriminate; constructor.
    + apply Q. now left.
    + apply IH; [now injection LL|]. intros f' g' I. apply Q. now right.
  - right. split; auto. right. rewrite CN in I. apply in_map_iff in I. destruct I as ((f' & g) & Q & I). cbn [fst snd] in Q. injection Q as <- <-.
    pose proof (in_combine_l _ _ _ _ I) as I1. pose proof (in_combine_r _ _ _ _ I) as I2. apply FI in I1. rewrite (is_field_class c f' K I1) in F. injection F as ->.
    assert (N : exists n, nth_error (class_fields c) n = Some f /\ nth_error placed n = Some g).
    { clear - I. revert placed I. induction (class_fields c) as [|a l IH]; intros [|b m] I; try contradiction.
      destruct I as [I|I]; [injection I as -> ->; now exists 0%nat|]. destruct (IH m I) as (n & N). now exists (Datatypes.S n). }
    destruct N as (n & N1 & N2). exists n, f, g, (field_value c e buf g). auto 6.
Qed.

Lemma value_unique c e buf g v w : value_at c e buf g v -> value_at c e buf g w -> v = w.
Proof. intros (I & S) (I' & S'). rewrite <- size_of_field in *. exact (stored_unique e buf (field_pos c g) _ v w I I' S S'). Qed.
Lemma Forall2_nth {A B} (P : A -> B -> Prop) l m : Forall2 P l m -> forall n a b, nth_error l n = Some a -> nth_error m n = Some b -> P a b.
Proof.
  induction 1 as [|x y l m H F IH]; intros [|n] a b L M; try discriminate; cbn in *; [injection L as <-; injection M as <-; auto|eauto].
Qed.
Lemma order_exclusive c e buf declared placed h : read_in_order c e buf declared placed h -> ~ refused_in_order c e buf declared placed.
Proof.
  intros R (n & f & g & v & N1 & N2 & V & A). destruct (Forall2_nth _ _ _ R n f g N1 N2) as (w & W & A' & _).
  apply A. now rewrite (value_unique _ _ _ _ _ _ V W).
Qed.

(* exactly when it is read *)
Lemma unpack_order_iff c e p buf declared placed : class_ok c -> starts_ok c -> declared_as c declared -> placed_as declared placed ->
  make_header_packer c e = Ok p -> all_bytes buf ->
  (header_length c (zlen buf) /\ ~ refused_in_order c e buf declared placed ->
     exists h, pk_unpack p buf = Ok h /\ h_cls h = c /\ read_in_order c e buf declared placed h) /\
  (~ header_length c (zlen buf) \/ refused_in_order c e buf declared placed -> pk_unpack p buf = Err ValueError).
Proof.
  intros K S D P M B. destruct (unpack_order c e p buf declared placed K S D P M B) as [(h & E & L & C & R)|(E & R)].
  - split; [eauto|]. intros [N|N]; [contradiction|]. exfalso. exact (order_exclusive _ _ _ _ _ _ R N).
  - split; [tauto|auto].
Qed.

(* packing a header and unpacking it *)
Lemma order_trip c e p h buf declared placed : class_ok c -> starts_ok c -> types_fit c -> declared_as c declared -> placed_as declared placed ->
  make_header_packer c e = Ok p -> h_cls h = c -> header_ok h -> pk_pack p h = Ok buf ->
  (exists h', pk_unpack p buf = Ok h' /\ h_cls h' = c /\
     Forall2 (fun f g => hdr_get h' (fd_name f) = hdr_get h (fd_name g)) declared placed) \/
  (pk_unpack p buf = Err ValueError /\
     exists n f g v, nth_error declared n = Some f /\ nth_error placed n = Some g /\ hdr_get h (fd_name g) = Ok v /\ ~ accepts (fd_type f) v).
Proof.
  intros K S T D P M HC HO PK. destruct (pack_layout c e p h buf K S M HC PK) as (HL & B & PL).
  assert (PF : forall g, In g placed -> is_field c g).
  { intros g G. apply (proj2 D). eapply Permutation_in; [apply Permutation_sym, (proj1 P)|exact G]. }
  assert (GV : forall g, In g placed -> exists v, hdr_get h (fd_name g) = Ok v /\ value_at c e buf g v).
  { intros g G. destruct (proj1 PL g (PF g G)) as (v & E & ST). exists v. split; [exact E|]. split; [|exact ST].
    apply (T g v (PF g G)). subst c. destruct (HO g (PF g G)) as (w & E' & A). congruence. }
  destruct (unpack_order c e p buf declared placed K S D P M B) as [(h' & E & L & C & R)|(E & [R|(n & f & g & v & N1 & N2 & V & A)])].
  - left. exists h'. split; [exact E|]. split; [exact C|].
    assert (GV' : forall g, In g placed -> exists v, hdr_get h (fd_name g) = Ok v /\ value_at c e buf g v) by auto.
    clear - R GV'. induction R as [|f g l m (v & V & A & H) _ IH]; constructor.
    + destruct (GV' g (or_introl eq_refl)) as (w & W & V'). rewrite H, W. f_equal. exact (value_unique _ _ _ _ _ _ V V').
    + apply IH. intros; apply GV'; now right.
  - contradiction.
  - right. split; [exact E|]. exists n, f, g, v. split; [exact N1|]. split; [exact N2|]. split; [|exact A].
    destruct (GV g) as (w & W & V'); [eapply nth_error_In; exact N2|]. rewrite W. f_equal. exact (value_unique _ _ _ _ _ _ V' V).
Qed.

(* formats made of chosen fields *)
Lemma sub_fields_names parent names : forall acc fs, levels_ok parent -> NoDup names -> (forall n, In n names -> ~ In n (map fd_name acc)) ->
  sub_fields parent names acc = Ok fs -> map fd_name fs = map fd_name acc ++ names.
Proof.
  induction names as [|n names IH]; intros acc fs K N D E; cbn [sub_fields] in E.
  - injection E as <-. now rewrite app_nil_r.
  - destruct (class_field parent n) as [f|] eqn:CF; [|discriminate].
    apply class_field_spec in CF; auto. destruct CF as (_ & En). inversion N as [|? ? N1 N2]; subst.
    destruct (smem (fd_name f) (map fd_name acc)) eqn:Q; [apply smem_In in Q; exfalso; apply (D (fd_name f)); auto; now left|].
    apply IH in E; auto.
    + rewrite E, map_app, <- app_assoc. reflexivity.
    + intros m Hm I. rewrite map_app in I. apply in_app_or in I. destruct I as [I|[<-|[]]].
      * apply (D m); auto. now right.
      * auto.
Qed.

Lemma placed_names_NoDup c chosen placed : levels_ok c -> (forall f, In f chosen -> is_field c f) -> placed_as chosen placed -> NoDup (map fd_name chosen).
Proof.
  intros K F (P & S). assert (N : NoDup chosen).
  { eapply Permutation_NoDup; [apply Permutation_sym, P|]. clear - S. induction S as [|a l S IH H]; constructor; auto.
    intros I. rewrite Forall_forall in H. specialize (H a I). lia. }
  clear S P placed. induction N as [|f l I N IH]; cbn [map]; constructor.
  - intros J. apply in_map_iff in J. destruct J as (g & E & J). apply I. replace f with g; auto.
    apply (is_field_name c); auto; apply F; [now right|now left].
  - apply IH. intros; apply F; now right.
Qed.

Lemma sub_order_cases name parent names e p n buf chosen placed : class_ok parent -> starts_ok parent -> fmt_length parent = Some n ->
  names <> [] -> chosen_as parent names chosen -> placed_as chosen placed -> make_header_packer parent e = Ok p -> all_bytes buf ->
  exists sub q, sub_format name parent names = Ok sub /\ sub_format_of sub parent names /\ class_ok sub /\ make_header_packer sub e = Ok q /\ 
    ((exists h, pk_unpack q buf = Ok h /\ zlen buf = n /\ read_in_order parent e buf chosen placed h) \/
     (pk_unpack q buf = Err ValueError /\ (zlen buf <> n \/ refused_in_order parent e buf chosen placed))).
Proof.
  intros K S Hn NE (CN & CF) P M B. pose proof (class_ok_levels _ K) as LK.
  assert (HN : forall m, In m names -> exists f, is_field parent f /\ fd_name f = m).
  { intros m I. rewrite <- CN in I. apply in_map_iff in I. destruct I as (f & E & I). eauto. }
  assert (ND : NoDup names) by (rewrite <- CN; eapply placed_names_NoDup; eauto).
  destruct (sub_format_ok name parent names LK HN) as (sub & fs & SF & LV & NDF & SO).
  pose proof (PackingFacts.sub_class_ok sub parent _ _ fs K LV NDF SO) as SC. pose proof SO as (S1 & S2 & S3).
  assert (EF : exists f, is_field sub f).
  { destruct names as [|n0 names]; [easy|]. destruct (HN n0 (or_introl eq_refl)) as (f & Hf & <-). exists f. apply S3. split; auto. now left. }
  destruct (sub_compiles sub parent _ e p n K SC SO Hn M EF) as (q & Q).
  exists sub, q. split; [exact SF|]. split; [exact SO|]. split; [exact SC|]. split; [exact Q|].
  assert (SS : starts_ok sub). { intros f F. rewrite S1. apply S. now apply S3. }
  assert (DE : declared_as sub chosen).
  { split; [|intros f I; apply S3; split; [auto|rewrite <- CN; now apply in_map]].
    rewrite LV. cbn [flat_map snd]. rewrite app_nil_r, CN. unfold sub_format in SF.
    destruct (sub_fields parent names []) as [fs'|] eqn:E; [|discriminate]. cbn [bind] in SF. injection SF as <-. cbn in LV. injection LV as <-.
    apply sub_fields_names in E; auto. }
  assert (HL : header_length sub (zlen buf) <-> zlen buf = n) by (unfold header_length; rewrite S2, Hn; tauto).
  assert (VA : forall g v, value_at sub e buf g v <-> value_at parent e buf g v) by (intros g v; unfold value_at, field_pos; rewrite S1; tauto).
  assert (RF : refused_in_order sub e buf chosen placed <-> refused_in_order parent e buf chosen placed).
  { unfold refused_in_order. split; intros (i & f & g & v & N1 & N2 & V & A); exists i, f, g, v; rewrite VA in *; auto. }
  destruct (unpack_order sub e q buf chosen placed SC SS DE P Q B) as [(h & E & L & _ & RD)|(E & R)]; rewrite HL, ?RF in *; [left|right; auto].
  exists h. split; [exact E|]. split; [exact L|].
  unfold read_in_order in *. clear - RD VA. induction RD as [|f g l m (v & V & A & H) _ IH]; constructor; auto. exists v. rewrite <- VA. auto.
Qed.

Lemma sub_order name parent names e p n buf chosen placed : class_ok parent -> starts_ok parent -> fmt_length parent = Some n ->
  names <> [] -> chosen_as parent names chosen -> placed_as chosen placed -> make_header_packer parent e = Ok p -> all_bytes buf ->
  exists sub q, sub_format name parent names = Ok sub /\ make_header_packer sub e = Ok q /\
    (zlen buf = n -> ~ refused_in_order parent e buf chosen placed ->
       exists h, pk_unpack q buf = Ok h /\ read_in_order parent e buf chosen placed h) /\
    (zlen buf <> n \/ refused_in_order parent e buf chosen placed -> pk_unpack q buf = Err ValueError).
Proof.
  intros K S Hn NE CH P M B. destruct (sub_order_cases name parent names e p n buf chosen placed K S Hn NE CH P M B) as (sub & q & E1 & _ & _ & E2 & D).
  exists sub, q. split; [exact E1|]. split; [exact E2|]. destruct D as [(h & E & L & R)|(E & R)].
  - split; [eauto|]. intros [N|N]; [contradiction|]. exfalso. exact (order_exclusive _ _ _ _ _ _ R N).
  - split; [|auto]. intros L N. destruct R; contradiction.
Qed.
