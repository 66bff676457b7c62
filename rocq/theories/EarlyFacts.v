(* Formats with fields before the start offset, and the arguments of the header
   constructor. *)
From Coq Require Import String ZArith List Bool Lia ZifyBool ZifyNat.
From Verif Require Import Py Util Packing Spec_Packing PyFacts UtilFacts PackFacts CompileFacts HeaderFacts PackingFacts FormatStringFacts Spec_Early.
Import ListNotations.
Local Open Scope string_scope.
Open Scope list_scope.
Open Scope Z_scope.

(* --- a format whose start is moved to its first field --- *)

Definition shift_group (k : Z) (g : Z * list fieldd) : Z * list fieldd := (fst g + k, snd g).
Definition shift_span (k : Z) (s : interval) : interval := (fst s + k, snd s + k).

Lemma group_insert_shift k rel f : forall d,
  group_insert (rel + k) f (map (shift_group k) d) =
  match group_insert rel f d with Ok d => Ok (map (shift_group k) d) | Err y => Err y end.
Proof.
  induction d as [|(o, fs) d IH]; [reflexivity|]. cbn [map shift_group fst snd group_insert].
  destruct (o =? rel) eqn:E.
  - destruct (o + k =? rel + k) eqn:E'; [|lia]. destruct fs as [|g fs]; [reflexivity|]. now destruct (String.eqb _ _).
  - destruct (o + k =? rel + k) eqn:E'; [lia|]. rewrite IH. now destruct (group_insert rel f d).
Qed.

Lemma group_fields_shift start m l :
  group_fields m l = match group_fields start l with Ok d => Ok (map (shift_group (start - m)) d) | Err y => Err y end.
Proof.
  unfold group_fields. change (Ok []) with (match (@Ok (list (Z * list fieldd)) []) with Ok d => Ok (map (shift_group (start - m)) d) | Err y => Err y end) at 1.
  generalize (@Ok (list (Z * list fieldd)) []). induction l as [|f l IH]; intros r; [reflexivity|]. cbn [fold_left]. rewrite <- IH. f_equal.
  destruct r as [d|y]; [|reflexivity]. cbn [bind]. replace (fd_offset f - m) with (fd_offset f - start + (start - m)) by lia. apply group_insert_shift.
Qed.

Lemma types_shift k d : map_res (fun g => group_type (snd g)) (map (shift_group k) d) = map_res (fun g => group_type (snd g)) d.
Proof. induction d as [|g d IH]; [reflexivity|]. cbn [map map_res shift_group snd]. now rewrite IH. Qed.

Lemma spans_shift k (d : list (Z * list fieldd)) ts :
  map (fun p => (fst (fst p), fst (fst p) + size_of (snd p))) (combine (map (shift_group k) d) ts) =
  map (shift_span k) (map (fun p => (fst (fst p), fst (fst p) + size_of (snd p))) (combine d ts)).
Proof.
  revert ts. induction d as [|g d IH]; intros [|t ts]; [reflexivity..|]. cbn [map combine fst snd shift_group]. rewrite IH. f_equal.
  unfold shift_span. cbn [fst snd]. f_equal. lia.
Qed.

Lemma loop_shift k l : forall i stop, compl_loop (i + k) (map (shift_span k) l) (stop + k) = map (shift_span k) (compl_loop i l stop).
Proof. induction l as [|s l IH]; intros i stop; [reflexivity|]. cbn [map compl_loop]. rewrite <- IH. reflexivity. Qed.

Lemma chunks_shift k gaps : forall cs, format_chunks (map (shift_span k) gaps) cs = format_chunks gaps cs.
Proof.
  induction gaps as [|(a, b) gaps IH]; intros cs; [reflexivity|]. cbn [map shift_span fst snd format_chunks].
  replace (b + k - (a + k)) with (b - a) by lia. destruct cs; rewrite IH; reflexivity.
Qed.

(* the first gap is empty in both *)
Lemma first_gap k i stop s l cs : fst s = - k -> 0 <= k -> i = 0 ->
  format_chunks (compl_loop i (map (shift_span k) (s :: l)) (stop + k)) cs = format_chunks (compl_loop i (s :: l) stop) cs.
Proof.
  intros E K ->. cbn [map compl_loop format_chunks]. rewrite E. cbn [shift_span fst snd].
  assert (A : (0 <? fst s + k - 0) = false) by lia. assert (B : (0 <? - k - 0) = false) by lia.
  unfold shift_span at 1. cbn [fst]. rewrite A, B. cbn [app]. unfold shift_span at 1. cbn [snd]. rewrite loop_shift.
  destruct cs; now rewrite chunks_shift.
Qed.

Definition moved (c : fmt) (m : Z) : fmt :=
  mk_fmt (fmt_levels c) m (option_map (fun n => n + (fmt_start c - m)) (fmt_length c)) (fmt_attrs c).

Lemma compile_moved c m r : class_ok c -> (forall f, is_field c f -> m <= fd_offset f) -> (exists f, is_field c f /\ fd_offset f = m) ->
  0 <= m <= fmt_start c -> compile_struct c (fmt_start c) (fmt_length c) = Ok r ->
  compile_struct c m (option_map (fun n => n + (fmt_start c - m)) (fmt_length c)) = Ok r.
Proof.
  intros K Lo (f0 & Hf0 & Em) Hm. set (start := fmt_start c) in *. set (len := fmt_length c). clearbody len.
  unfold compile_struct. destruct (start <? 0) eqn:E0; [lia|]. destruct (m <? 0) eqn:E0'; [lia|].
  destruct (match len with Some n => n <? 1 | None => false end) eqn:E1; [discriminate|].
  assert (E1' : match option_map (fun n => n + (start - m)) len with Some n => n <? 1 | None => false end = false) by (destruct len; cbn in *; lia).
  rewrite E1'. cbv zeta. set (sorted := sort_by _ (class_fields c)).
  destruct (zlen sorted <? 1) eqn:E2; [discriminate|].
  set (chk := if 1 <? zlen sorted then _ else _). destruct chk as [[]|]; cbn [bind]; [|discriminate].
  destruct (py_get sorted (-1)) as [lf|]; cbn [bind]; [|discriminate].
  set (dl := fd_offset lf - start + size_of (fd_type lf)). set (sl := match len with None => dl | Some n => n end).
  assert (Q1 : fd_offset lf - m + size_of (fd_type lf) = dl + (start - m)) by (unfold dl; lia). rewrite Q1.
  assert (Q2 : match option_map (fun n => n + (start - m)) len with None => dl + (start - m) | Some n => n end = sl + (start - m)) by (unfold sl; destruct len; reflexivity).
  rewrite Q2. replace (sl + (start - m) - (dl + (start - m))) with (sl - dl) by lia. destruct (sl - dl <? 0); [discriminate|].
  rewrite (group_fields_shift start m). pose proof (group_fields_spec start sorted (off_sorted (class_fields c))) as GS.
  destruct GS as [(d & Ed & (SG & GO) & Ef)|(Ed & _)]; rewrite Ed; cbn [bind]; [|discriminate].
  rewrite types_shift. destruct (map_res _ d) as [ts|] eqn:Et; cbn [bind]; [|discriminate].
  rewrite spans_shift. set (spans := map (fun p => (fst (fst p), fst (fst p) + size_of (snd p))) (combine d ts)).
  assert (F : forall s l, spans = s :: l -> fst s = - (start - m)).
  { intros s l Es. destruct d as [|(o, fs) d]; [discriminate|]. destruct ts as [|t ts]; [discriminate|]. cbn in Es. injection Es as <- _. cbn [fst].
    assert (I0 : In f0 sorted) by (apply sort_by_In; apply class_fields_In; auto using class_ok_levels).
    rewrite <- Ef in I0. apply in_flat_map in I0. destruct I0 as (g & Ig & If). rewrite Forall_forall in GO.
    destruct (GO g Ig) as (_ & Og & _). specialize (Og f0 If).
    destruct (GO (o, fs) (or_introl eq_refl)) as (Ne & Oo & _). cbn [fst snd] in *.
    destruct fs as [|f1 fs]; [easy|]. specialize (Oo f1 (or_introl eq_refl)).
    assert (L1 : m <= fd_offset f1).
    { apply Lo. apply class_fields_In; [now apply class_ok_levels|]. apply (sort_by_In (fun a b => fd_offset a <=? fd_offset b)). fold sorted. rewrite <- Ef. now left. }
    assert (o <= fst g); [|lia]. destruct Ig as [<-|Ig]; [cbn; lia|]. cbn [map fst] in SG. inversion SG as [|x y S1 S2]; subst.
    rewrite Forall_forall in S2. specialize (S2 (fst g)). assert (In (fst g) (map fst d)) by now apply in_map. specialize (S2 H). lia. }
  destruct spans as [|s l] eqn:Es; [discriminate|]. cbn [complementary_intervals map bind]. cbn [map] in *.
  intros H. rewrite <- H. f_equal. f_equal; [|rewrite map_map; apply map_ext; reflexivity].
  apply (first_gap (start - m) 0 sl s l); [apply (F s l); reflexivity|lia|reflexivity].
Qed.

Lemma moved_packer c e p m : class_ok c -> (forall f, is_field c f -> m <= fd_offset f) -> (exists f, is_field c f /\ fd_offset f = m) ->
  0 <= m <= fmt_start c -> make_header_packer c e = Ok p ->
  make_header_packer (moved c m) e = Ok (mk_packer (moved c m) e (pk_chunks p) (pk_alloc p) (pk_bijective p)).
Proof.
  intros K Lo Ex Hm. unfold make_header_packer at 1. destruct (compile_struct c (fmt_start c) (fmt_length c)) as [(ch, al)|] eqn:E; cbn [bind]; [|discriminate].
  intros H. apply (f_equal (fun r => match r with Ok x => x | Err _ => p end)) in H. cbv beta iota in H. subst p. cbn [pk_chunks pk_alloc pk_bijective].
  unfold make_header_packer. change (compile_struct (moved c m) (fmt_start (moved c m)) (fmt_length (moved c m)))
    with (compile_struct c m (option_map (fun n => n + (fmt_start c - m)) (fmt_length c))).
  rewrite (compile_moved c m _ K Lo Ex Hm E). reflexivity.
Qed.

Lemma moved_pack c e p m h : (exists f, is_field c f /\ fd_offset f = m) -> class_ok c -> (forall f, is_field c f -> m <= fd_offset f) ->
  0 <= m <= fmt_start c -> make_header_packer c e = Ok p -> h_cls h = c -> header_ok h ->
  exists len, header_length c len /\
    (forall buf, pk_pack p h = Ok buf -> zlen buf = len + (fmt_start c - m) /\
       forall f v, is_field c f -> hdr_get h (fd_name f) = Ok v -> stored_at e buf (fd_offset f - m) (field_size f) v).
Proof.
  intros Ex K Lo Hm M C HO. pose proof (moved_packer c e p m K Lo Ex Hm M) as M'.
  set (p' := mk_packer _ _ _ _ _) in M'. set (c' := moved c m) in *.
  assert (IS : isinstance h c' = true).
  { unfold isinstance, c', moved, fmt_name. cbn [fmt_levels]. fold (fmt_name c). rewrite <- C. apply isinstance_self. rewrite C. destruct Ex as (f & Hf & _). eauto. }
  assert (PP : pk_pack p h = pk_pack p' h).
  { unfold pk_pack. destruct (make_packer_ok _ _ _ M) as (d & len & Ep & _). cbn [pk_bijective pk_alloc pk_endian pk_chunks p'].
    replace (isinstance h (pk_cls p)) with (isinstance h (pk_cls p')); [now rewrite Ep|]. now rewrite Ep. }
  destruct (pack_spec c' e p' h (fun f => name_val h (fd_name f))) as (len & Ln & Bd & Cases).
  - exact K.
  - exact Lo.
  - exact M'.
  - exact IS.
  - intros f Hf. apply name_val_get. rewrite C. rewrite (is_field_class c f K Hf). discriminate.
  - exists (len - (fmt_start c - m)). split.
    + unfold header_length. unfold c', moved in Ln. cbn [fmt_length fmt_start] in Ln. destruct (fmt_length c) as [n|]; cbn [option_map] in Ln.
      * lia.
      * split; [destruct Ln as (f & Hf & E); exists f; split; [exact Hf|]; unfold field_pos in *; cbn [fmt_start] in E; lia|].
        intros f Hf. specialize (Bd f Hf). unfold field_pos, c', moved in *. cbn [fmt_start] in Bd. lia.
    + intros buf. rewrite PP. destruct Cases as [(b & -> & L & _ & _ & S & _)|[(-> & _)|(-> & _)]]; try discriminate.
      intros H. injection H as <-. split; [lia|]. intros f v Hf G. destruct (S f Hf) as (_ & S'). unfold field_pos, c', moved in S'. cbn [fmt_start] in S'.
      rewrite name_val_get in G by (rewrite C, (is_field_class c f K Hf); discriminate). injection G as <-. exact S'.
Qed.

Lemma early_length c e p h buf : class_ok c -> (forall f, is_field c f -> 0 <= fd_offset f) -> make_header_packer c e = Ok p ->
  h_cls h = c -> header_ok h -> pk_pack p h = Ok buf -> (header_length c (zlen buf) <-> starts_ok c).
Proof.
  intros K NN M C HO P.
  assert (HL : forall a b, header_length c a -> header_length c b -> a = b).
  { unfold header_length. intros a b. destruct (fmt_length c); [congruence|]. intros ((f & Hf & ->) & A) ((g & Hg & ->) & B). specialize (A g Hg). specialize (B f Hf). lia. }
  assert (PF : exists f, is_field c f) by exact (packer_has_field c e p K M).
  assert (Mn : exists m, (exists f, is_field c f /\ fd_offset f = m) /\ forall f, is_field c f -> m <= fd_offset f).
  { destruct (make_packer_ok _ _ _ M) as (d & len & _ & _).
    assert (G : forall l : list fieldd, l <> [] -> exists f, In f l /\ forall g, In g l -> fd_offset f <= fd_offset g).
    { induction l as [|a l IH]; [easy|]. intros _. destruct l as [|b l]; [exists a; split; [now left|]; intros g [<-|[]]; lia|].
      destruct IH as (f & Hf & Lf); [discriminate|]. destruct (Z_le_gt_dec (fd_offset a) (fd_offset f)).
      - exists a. split; [now left|]. intros g [<-|Hg]; [lia|]. specialize (Lf g Hg). lia.
      - exists f. split; [now right|]. intros g0 [<-|Hg]; [lia|]. now apply Lf. }
    destruct (G (class_fields c)) as (f & Hf & Lf).
    - destruct PF as (f & Hf). apply class_fields_In in Hf; [|now apply class_ok_levels]. intros E. rewrite E in Hf. destruct Hf.
    - exists (fd_offset f). apply class_fields_In in Hf; [|now apply class_ok_levels]. split; [eauto|]. intros g Hg. apply Lf. apply class_fields_In; auto using class_ok_levels. }
  destruct Mn as (m & (f0 & Hf0 & E0) & Lo). split.
  - intros H. destruct (Z_le_gt_dec m (fmt_start c)) as [Le|Gt]; [|intros f Hf; specialize (Lo f Hf); lia].
    destruct (moved_pack c e p m h) as (len & L & Pk); eauto. { specialize (NN f0 Hf0). lia. }
    destruct (Pk buf P) as (Z1 & _). pose proof (HL _ _ H L). intros f Hf. specialize (Lo f Hf). lia.
  - intros S. destruct (pack_spec c e p h (fun f => name_val h (fd_name f)) K S M) as (len & Ln & Bd & Cases).
    + rewrite <- C. apply isinstance_self. now rewrite C.
    + intros f Hf. apply name_val_get. rewrite C, (is_field_class c f K Hf). discriminate.
    + rewrite P in Cases. destruct Cases as [(b & E & L & _)|[(E & _)|(E & _)]]; try discriminate. injection E as <-. rewrite L. unfold header_length.
      destruct (fmt_length c); [exact Ln|]. split; [exact Ln|]. intros f Hf. now apply Bd.
Qed.

Lemma early_unpack c e p m buf : class_ok c -> (forall f, is_field c f -> m <= fd_offset f) -> (exists f, is_field c f /\ fd_offset f = m) ->
  0 <= m <= fmt_start c -> make_header_packer c e = Ok p ->
  forall len, header_length c len -> zlen buf <> len + (fmt_start c - m) -> pk_unpack p buf = Err ValueError.
Proof.
  intros K Lo Ex Hm M len HL N. pose proof (moved_packer c e p m K Lo Ex Hm M) as M'.
  destruct (make_packer_ok _ _ _ M') as (d & l & E & C & LB & TB). 
  assert (L : laid_out 0 (items_of d) l).
  { apply (compiled_laid_out _ _ _ _ _ C).
    - intros f Hf. cbn [moved fmt_start]. apply Lo. apply class_fields_In; auto using class_ok_levels.
    - intros Q. apply TB. now left. }
  assert (Q : pk_chunks p = chunks_for 0 (items_of d) l) by (now injection E).
  assert (Ql : l = len + (fmt_start c - m)).
  { destruct C as (_ & _ & _ & Up & Cl). unfold header_length in HL. cbn [moved fmt_length fmt_start] in Cl, Up. destruct (fmt_length c) as [n|]; cbn [option_map] in Cl; [lia|].
    destruct HL as ((f & Hf & ->) & HL). destruct Cl as (g & Hg & ->).
    assert (FI : forall f, In f (class_fields c) <-> is_field c f) by (intros; apply class_fields_In; auto using class_ok_levels).
    change (class_fields (moved c m)) with (class_fields c) in *.
    pose proof (Up f (proj2 (FI f) Hf)). pose proof (HL g (proj1 (FI g) Hg)). unfold field_pos in *. lia. }
  unfold pk_unpack. rewrite Q. unfold struct_unpack. rewrite (chunks_for_size _ _ _ L).
  destruct (zlen buf =? l - 0) eqn:Z0; [lia|]. reflexivity.
Qed.

(* --- the arguments of the constructor --- *)

Definition extras_known (h : header) : Prop := forall m, In m (map fst (h_extra h)) -> In m (fmt_attrs (h_cls h)).

Lemma class_field_none c n : class_ok c -> class_field c n = None -> forall f, is_field c f -> fd_name f <> n.
Proof. intros K H f Hf E. rewrite <- E, (is_field_class c f K Hf) in H. discriminate. Qed.

Lemma has_attr_known h n : class_ok (h_cls h) -> extras_known h -> (has_attr h n = true <-> recognised (h_cls h) n).
Proof.
  intros K X. unfold has_attr, recognised. destruct (class_field (h_cls h) n) as [f|] eqn:E.
  - apply class_field_spec in E; [|now apply class_ok_levels]. split; [intros _; left; eauto|reflexivity].
  - rewrite orb_true_iff, !smem_In. split; [intros [H|H]; right; auto|]. intros [(f & Hf & En)|H]; [|now left].
    exfalso. exact (class_field_none _ _ K E f Hf En).
Qed.

Lemma set_cases h n v : class_ok (h_cls h) -> extras_known h -> recognised (h_cls h) n ->
  (exists h', hdr_set h n v = Ok h' /\ h_cls h' = h_cls h /\ extras_known h' /\ value_ok (h_cls h) n v) \/
  (hdr_set h n v = Err ValueError /\ ~ value_ok (h_cls h) n v).
Proof.
  intros K X R. unfold hdr_set. destruct (class_field (h_cls h) n) as [f|] eqn:E.
  - apply class_field_spec in E; [|now apply class_ok_levels]. destruct E as (Hf & En).
    destruct (ft_new_spec (fd_type f) v) as [(-> & A)|(-> & A)]; cbn [bind].
    + left. eexists. split; [reflexivity|]. split; [reflexivity|]. split; [exact X|]. intros g Hg Eg.
      replace g with f; [exact A|]. apply (is_field_name (h_cls h)); auto using class_ok_levels. congruence.
    + right. split; [reflexivity|]. intros V. apply A. now apply V.
  - left. eexists. split; [reflexivity|]. split; [reflexivity|]. split.
    + intros m Hm. cbn [h_extra h_cls] in *. rewrite assoc_set_keys in Hm. destruct (smem n (map fst (h_extra h))); [now apply X|].
      apply in_app_or in Hm. destruct Hm as [Hm|[<-|[]]]; [now apply X|]. destruct R as [(f & Hf & En)|R]; [|exact R].
      exfalso. exact (class_field_none _ _ K E f Hf En).
    + intros f Hf En. exfalso. exact (class_field_none _ _ K E f Hf En).
Qed.

Lemma keywords_outcome kws : forall h, class_ok (h_cls h) -> extras_known h ->
  ((exists h', set_keywords h kws = Ok h' /\ h_cls h' = h_cls h) /\ (forall n v, In (n, v) kws -> recognised (h_cls h) n /\ value_ok (h_cls h) n v)) \/
  (exists k1 n v k2, kws = k1 ++ (n, v) :: k2 /\ (forall m w, In (m, w) k1 -> recognised (h_cls h) m /\ value_ok (h_cls h) m w) /\
     ((set_keywords h kws = Err TypeError /\ ~ recognised (h_cls h) n) \/
      (set_keywords h kws = Err ValueError /\ recognised (h_cls h) n /\ ~ value_ok (h_cls h) n v))).
Proof.
  induction kws as [|(n, v) kws IH]; intros h K X; cbn [set_keywords].
  - left. split; [eauto|]. intros n v [].
  - destruct (has_attr h n) eqn:E.
    + apply has_attr_known in E; [|exact K|exact X]. destruct (set_cases h n v K X E) as [(h1 & -> & C & X1 & V)|(-> & V)]; cbn [bind].
      * destruct (IH h1) as [((h' & S & C') & A)|(k1 & m & w & k2 & -> & A & B)]; [now rewrite C|exact X1| |]; rewrite C in *.
        -- left. split; [exists h'; split; [exact S|congruence]|]. intros m w [Q|I]; [injection Q as -> ->; now split|now apply A].
        -- right. exists ((n, v) :: k1), m, w, k2. split; [reflexivity|]. split; [|exact B]. intros m' w' [Q|I]; [injection Q as -> ->; now split|now apply A].
      * right. exists [], n, v, kws. split; [reflexivity|]. split; [intros m w []|]. right. auto.
    + right. exists [], n, v, kws. split; [reflexivity|]. split; [intros m w []|]. left. split; [reflexivity|].
      intros R. apply has_attr_known in R; [congruence|exact K|exact X].
Qed.

Lemma init_keywords c kws : hdr_init c [] kws = set_keywords (mk_header c [] []) kws.
Proof. unfold hdr_init. destruct (ordered_field_names c); reflexivity. Qed.

Lemma arguments_dropped c args kws : hdr_init c args kws = hdr_init c (firstn (List.length (ordered_field_names c)) args) kws.
Proof.
  unfold hdr_init. f_equal. generalize (mk_header c [] []). generalize (ordered_field_names c). intros l. revert args.
  induction l as [|n l IH]; intros args h; [destruct args; reflexivity|]. destruct args as [|v args]; [reflexivity|].
  cbn [List.length firstn set_positional]. destruct (hdr_set h n v); cbn [bind]; [apply IH|reflexivity].
Qed.

(* headers that differ in other attributes only *)
Definition alike (h h' : header) : Prop := h_cls h' = h_cls h /\ h_vals h' = h_vals h.

Lemma alike_same h h' : alike h h' -> same_fields h h'.
Proof.
  intros (C & V). split; [exact C|]. intros f Hf. unfold hdr_get. rewrite C, V. destruct (class_field (h_cls h) (fd_name f)) eqn:E; [reflexivity|].
  exfalso. destruct Hf as (l1 & l & l2 & Q & I & _). unfold class_field in E. pose proof (proj1 (find_level_none _ _) E l f) as N. apply N; [|exact I|reflexivity].
  rewrite Q. apply in_or_app. right. now left.
Qed.

Lemma set_alike h h' n v g : alike h h' -> hdr_set h n v = Ok g -> exists g', hdr_set h' n v = Ok g' /\ alike g g'.
Proof.
  intros (C & V). unfold hdr_set. rewrite C, V. destruct (class_field (h_cls h) n) as [f|].
  - destruct (ft_new (fd_type f) v) as [w|]; cbn [bind]; [|discriminate]. intros H. injection H as <-. eexists. split; [reflexivity|]. split; reflexivity.
  - intros H. injection H as <-. eexists. split; [reflexivity|]. split; reflexivity.
Qed.

Lemma keywords_alike kws : forall h h' g, class_ok (h_cls h) -> extras_known h -> extras_known h' -> alike h h' ->
  set_keywords h kws = Ok g -> exists g', set_keywords h' kws = Ok g' /\ alike g g'.
Proof.
  induction kws as [|(n, v) kws IH]; intros h h' g K X X' A; cbn [set_keywords].
  - intros H. injection H as <-. eauto.
  - destruct (has_attr h n) eqn:E; [|discriminate]. apply has_attr_known in E; [|exact K|exact X].
    assert (E' : has_attr h' n = true). { apply has_attr_known; [destruct A as (-> & _); exact K|exact X'|]. destruct A as (-> & _). exact E. }
    rewrite E'. destruct (set_cases h n v K X E) as [(h1 & S & C & X1 & _)|(-> & _)]; cbn [bind]; [|discriminate]. rewrite S. cbn [bind].
    destruct (set_alike h h' n v h1 A S) as (h1' & S' & A1). rewrite S'. cbn [bind]. intros H.
    destruct (set_cases h' n v) as [(h2 & S2 & _ & X2 & _)|(S2 & _)]; [destruct A as (-> & _); exact K|exact X'|destruct A as (-> & _); exact E| |congruence].
    assert (h2 = h1') by congruence. subst h2. apply (IH h1 h1' g); auto. now rewrite C.
Qed.

Lemma positional_known c args h : set_positional (mk_header c [] []) (ordered_field_names c) args = Ok h -> h_cls h = c /\ h_extra h = [].
Proof.
  assert (G : forall l args h0 h, (forall n, In n l -> class_field (h_cls h0) n <> None) -> set_positional h0 l args = Ok h -> h_cls h = h_cls h0 /\ h_extra h = h_extra h0).
  { induction l as [|n l IH]; intros as_ h0 h1 F; [cbn; intros H; injection H as <-; auto|]. destruct as_ as [|v as_]; [cbn; intros H; injection H as <-; auto|].
    cbn [set_positional]. unfold hdr_set. destruct (class_field (h_cls h0) n) as [f|] eqn:E; [|exfalso; apply (F n); [now left|exact E]].
    destruct (ft_new (fd_type f) v) as [w|]; cbn [bind]; [|discriminate]. intros H. apply IH in H; [exact H|]. intros m Hm. cbn [h_cls]. apply F. now right. }
  intros H. apply G in H; [exact H|]. intros n Hn. cbn [h_cls]. now apply ordered_names_In.
Qed.

Lemma split_keywords k1 : forall k2 h, set_keywords h (k1 ++ k2) = (do h1 <- set_keywords h k1 ;; set_keywords h1 k2).
Proof.
  induction k1 as [|(n, v) k1 IH]; intros k2 h; [reflexivity|]. cbn [app set_keywords]. destruct (has_attr h n); [|reflexivity].
  destruct (hdr_set h n v); cbn [bind]; [apply IH|reflexivity].
Qed.

Lemma attribute_no_effect c args k1 n v k2 h : class_ok c -> (forall f, is_field c f -> fd_name f <> n) ->
  hdr_init c args (k1 ++ (n, v) :: k2) = Ok h -> exists h', hdr_init c args (k1 ++ k2) = Ok h' /\ same_fields h h'.
Proof.
  intros K NF. unfold hdr_init. destruct (set_positional (mk_header c [] []) (ordered_field_names c) args) as [h0|] eqn:E0; cbn [bind]; [|discriminate].
  apply positional_known in E0. destruct E0 as (C0 & X0).
  assert (EX : extras_known h0) by (intros m; rewrite X0; intros []).
  rewrite !split_keywords. destruct (keywords_outcome k1 h0) as [((h1 & S1 & C1) & _)|(l1 & m & w & l2 & _ & _ & [(S1 & _)|(S1 & _)])]; [now rewrite C0|exact EX| |rewrite S1; discriminate|rewrite S1; discriminate].
  rewrite S1. cbn [bind]. cbn [set_keywords].
  assert (EX1 : extras_known h1).
  { clear -S1 EX K C0. revert h0 S1 EX C0. induction k1 as [|(m, w) k1 IH]; intros h0 S1 EX C0; cbn [set_keywords] in S1; [injection S1 as <-; exact EX|].
    destruct (has_attr h0 m) eqn:E; [|discriminate]. apply has_attr_known in E; [|now rewrite C0|exact EX].
    destruct (set_cases h0 m w) as [(h2 & S2 & C2 & X2 & _)|(S2 & _)]; [now rewrite C0|exact EX|exact E| |rewrite S2 in S1; discriminate].
    rewrite S2 in S1. cbn [bind] in S1. apply (IH h2 S1 X2). congruence. }
  destruct (has_attr h1 n) eqn:E; [|discriminate]. apply has_attr_known in E; [|now rewrite C1, C0|exact EX1].
  destruct (set_cases h1 n v) as [(h2 & S2 & C2 & X2 & _)|(S2 & _)]; [now rewrite C1, C0|exact EX1|exact E| |rewrite S2; discriminate].
  rewrite S2. cbn [bind]. intros H.
  assert (A : alike h2 h1).
  { unfold hdr_set in S2. destruct (class_field (h_cls h1) n) as [f|] eqn:CF.
    - exfalso. apply class_field_spec in CF; [|apply class_ok_levels; now rewrite C1, C0]. destruct CF as (Hf & En). rewrite C1, C0 in Hf. exact (NF f Hf En).
    - injection S2 as <-. split; reflexivity. }
  destruct (keywords_alike k2 h2 h1 h) as (g & Sg & Ag); [now rewrite C2, C1, C0|exact X2|exact EX1|exact A|exact H|].
  exists g. split; [exact Sg|]. now apply alike_same.
Qed.
