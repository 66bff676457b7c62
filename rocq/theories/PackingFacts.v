(* The properties of header formats and packing, assembled from CompileFacts.v
   and HeaderFacts.v. *)
From Coq Require Import String ZArith List Bool Lia ZifyBool ZifyNat Sorted Permutation.
From Verif Require Import Py Util Packing PyFacts Spec_Util UtilFacts Spec_Packing PackFacts CompileFacts HeaderFacts.
Import ListNotations.
Open Scope Z_scope.

Lemma header_length_unique c n m : header_length c n -> header_length c m -> n = m.
Proof.
  unfold header_length. destruct (fmt_length c); [congruence|].
  intros ((f & Hf & ->) & A) ((g & Hg & ->) & B). specialize (A g Hg). specialize (B f Hf). lia.
Qed.

Lemma length_of c len :
  (match fmt_length c with Some n => len = n | None => exists f, is_field c f /\ len = field_pos c f + field_size f end) ->
  (forall f, is_field c f -> 0 <= field_pos c f /\ field_pos c f + field_size f <= len) -> header_length c len.
Proof. unfold header_length. intros A B. destruct (fmt_length c); auto. split; auto. intros f Hf. now apply B. Qed.

(* --- C15 --- *)
Lemma set_get h f v : class_ok (h_cls h) -> is_field (h_cls h) f ->
  (accepts (fd_type f) v -> exists h', hdr_set h (fd_name f) v = Ok h' /\ h_cls h' = h_cls h /\
     hdr_get h' (fd_name f) = Ok v /\ forall n, n <> fd_name f -> hdr_get h' n = hdr_get h n) /\
  (~ accepts (fd_type f) v -> hdr_set h (fd_name f) v = Err ValueError).
Proof.
  intros K Hf. unfold hdr_set. rewrite (is_field_class _ _ K Hf).
  destruct (ft_new_spec (fd_type f) v) as [(-> & A)|(-> & A)]; cbn [bind]; split; intros Q; try easy.
  eexists. split; [reflexivity|]. split; [reflexivity|]. unfold hdr_get. cbn [h_cls h_vals h_extra].
  split.
  - rewrite (is_field_class _ _ K Hf), assoc_set_get, String.eqb_refl. reflexivity.
  - intros n Hn. destruct (class_field (h_cls h) n); auto. rewrite assoc_set_get.
    replace (String.eqb (fd_name f) n) with false; auto. symmetry. apply String.eqb_neq. congruence.
Qed.

(* --- C16, C22 --- *)
Lemma get_fun h : class_ok (h_cls h) -> exists val, forall f, is_field (h_cls h) f -> hdr_get h (fd_name f) = Ok (val f).
Proof.
  intros K. exists (fun f => match assoc (fd_name f) (h_vals h) with Some v => v | None => fd_default f end).
  intros f Hf. now apply hdr_get_field.
Qed.

Lemma pack_layout c e p h buf : class_ok c -> starts_ok c -> make_header_packer c e = Ok p -> h_cls h = c ->
  pk_pack p h = Ok buf ->
  header_length c (zlen buf) /\ all_bytes buf /\
  (forall f, is_field c f -> exists v, hdr_get h (fd_name f) = Ok v /\ stored_at e buf (field_pos c f) (field_size f) v) /\
  (forall i, 0 <= i < zlen buf -> ~ covered c i -> byte_at buf i = 0).
Proof.
  intros K S M Hc P. subst c. destruct (get_fun h K) as (val & V).
  pose proof (isinstance_self h (packer_has_field _ _ _ K M)) as I.
  destruct (pack_spec _ e p h val K S M I V) as (len & L1 & L2 & [(buf' & E & Z & B & _ & St & G)|[(E & _)|(E & _)]]);
    rewrite E in P; try discriminate. injection P as ->. subst len.
  split; [now apply length_of|]. split; auto. split; auto.
  intros f Hf. exists (val f). split; [now apply V|]. now apply St.
Qed.

Lemma pack_total c e p h : class_ok c -> starts_ok c -> types_fit c -> make_header_packer c e = Ok p -> h_cls h = c -> header_ok h ->
  (exists buf, pk_pack p h = Ok buf /\
     (forall f g, is_field c f -> is_field c g -> fd_offset f = fd_offset g -> hdr_get h (fd_name f) = hdr_get h (fd_name g))) \/
  (pk_pack p h = Err ValueError /\
     (exists f g, is_field c f /\ is_field c g /\ fd_offset f = fd_offset g /\ hdr_get h (fd_name f) <> hdr_get h (fd_name g))).
Proof.
  intros K S T M Hc H. subst c. destruct (get_fun h K) as (val & V).
  pose proof (isinstance_self h (packer_has_field _ _ _ K M)) as I.
  destruct (pack_spec _ e p h val K S M I V) as (len & L1 & L2 & [(buf' & E & Z & B & Q & St & G)|[(E & f & g & Hf & Hg & O & N)|(E & _ & f & Hf & N)]]).
  - left. exists buf'. split; auto. intros f g Hf Hg O. rewrite (V f Hf), (V g Hg). f_equal. auto.
  - right. split; auto. exists f, g. rewrite (V f Hf), (V g Hg). split; auto. split; auto. split; auto. congruence.
  - exfalso. apply N. apply (T f); auto. destruct (H f Hf) as (v & E1 & A). rewrite (V f Hf) in E1. congruence.
Qed.

(* no two declared fields at one offset *)
Definition no_coincident (c : fmt) : Prop :=
  forall f g, is_field c f -> is_field c g -> fd_offset f = fd_offset g -> f = g.

Lemma declared_no_coincident c : class_ok c -> declared_in_order c -> no_coincident c.
Proof.
  intros K D f g Hf Hg E. pose proof (declared_sorted c K D) as S.
  assert (FI : forall f, In f (class_fields c) <-> is_field c f) by (intros; apply class_fields_In; auto using class_ok_levels).
  apply FI in Hf, Hg. destruct (strong_pairs _ _ _ _ S Hf Hg) as [?|[?|?]]; auto; lia.
Qed.

(* --- C17 --- *)
Lemma compile_iff c start length : levels_ok c ->
  (compile_struct c start length = Err ValueError <-> layout_invalid c start length) /\
  (compile_struct c start length = Err TypeError <-> ~ layout_invalid c start length /\ types_invalid c) /\
  ((exists r, compile_struct c start length = Ok r) <-> ~ layout_invalid c start length /\ ~ types_invalid c).
Proof.
  intros K. assert (FI : forall f, In f (class_fields c) <-> is_field c f) by (intros; now apply class_fields_In).
  assert (LB : layout_bad (class_fields c) start length <-> layout_invalid c start length).
  { unfold layout_bad, layout_invalid. split; (intros [A|[A|[(f & g & A & B & C)|(n & f & A & B & C)]]]; [now left|right; now left| |]).
    - right. right. left. exists f, g. rewrite <- !FI. auto.
    - right. right. right. exists n, f. rewrite <- FI. split; auto. split; auto. lia.
    - right. right. left. exists f, g. rewrite !FI. auto.
    - right. right. right. exists n, f. rewrite FI. split; auto. split; auto. lia. }
  assert (TB : types_bad (class_fields c) <-> types_invalid c).
  { unfold types_bad, types_invalid. split.
    - intros [A|(f & g & A & B & C & D)].
      + left. intros f Hf. apply FI in Hf. rewrite A in Hf. destruct Hf.
      + right. exists f, g. rewrite <- !FI. auto.
    - intros [A|(f & g & A & B & C & D)].
      + left. destruct (class_fields c) as [|f fs]; auto. exfalso. apply (A f). apply FI. now left.
      + right. exists f, g. rewrite !FI. auto. }
  rewrite <- LB, <- TB.
  destruct (compile_cases c start length) as [(E & A)|[(E & A & B)|(d & len & E & A & B & C)]]; rewrite E.
  - split; [split; auto|]. split; [split; [discriminate|tauto]|]. split; [intros (r & ?); discriminate|tauto].
  - split; [split; [discriminate|tauto]|]. split; [split; auto|]. split; [intros (r & ?); discriminate|tauto].
  - split; [split; [discriminate|tauto]|]. split; [split; [discriminate|tauto]|]. split; eauto.
Qed.

(* --- C18, C19 --- *)
Lemma round_trip c e p h : class_ok c -> starts_ok c -> types_fit c -> has_coincident c \/ declared_in_order c ->
  make_header_packer c e = Ok p -> h_cls h = c -> header_ok h ->
  forall buf, pk_pack p h = Ok buf -> exists h', pk_unpack p buf = Ok h' /\ same_fields h h'.
Proof.
  intros K S T O M Hc H buf P. subst c.
  destruct (pack_layout _ e p h buf K S M eq_refl P) as (HL & B & St & _).
  destruct (unpack_spec _ e p buf K S O M) as (len & L1 & L2 & U).
  assert (zlen buf = len) by (apply (header_length_unique (h_cls h)); auto; now apply length_of).
  assert (FV : forall f, is_field (h_cls h) f -> hdr_get h (fd_name f) = Ok (field_value (h_cls h) e buf f) /\ accepts (fd_type f) (field_value (h_cls h) e buf f)).
  { intros f Hf. destruct (St f Hf) as (v & E & SA). destruct (H f Hf) as (v' & E' & A). assert (v' = v) by congruence. subst v'.
    pose proof (T f v Hf A) as IC. rewrite <- size_of_field in SA. unfold size_of in SA.
    pose proof (stored_slice _ _ _ _ _ IC SA) as PI. apply unpack_pack_int in PI.
    unfold field_value, slice_value. rewrite PI. auto. }
  destruct U as [(h' & E & Hc & _ & _ & G)|(E & [N|(f & Hf & N)])].
  - exists h'. split; auto. split; auto. intros f Hf. destruct (G f Hf) as (G1 & _). destruct (FV f Hf) as (F1 & _). congruence.
  - exfalso. auto.
  - exfalso. apply N. now apply FV.
Qed.

(* --- C20 --- *)
Lemma unpack_iff c e p buf : class_ok c -> starts_ok c -> has_coincident c \/ declared_in_order c ->
  make_header_packer c e = Ok p -> all_bytes buf ->
  (exists h, pk_unpack p buf = Ok h /\ header_length c (zlen buf) /\ holds_buffer c e buf h) \/
  (pk_unpack p buf = Err ValueError /\
     (~ header_length c (zlen buf) \/
      exists f v, is_field c f /\ in_ctype (ft_ctype (fd_type f)) v /\ stored_at e buf (field_pos c f) (field_size f) v /\
        ~ accepts (fd_type f) v)).
Proof.
  intros K S O M B. destruct (unpack_spec _ e p buf K S O M) as (len & L1 & L2 & U).
  pose proof (length_of c len L1 L2) as HL.
  assert (FS : zlen buf = len -> forall f, is_field c f ->
     in_ctype (ft_ctype (fd_type f)) (field_value c e buf f) /\ stored_at e buf (field_pos c f) (field_size f) (field_value c e buf f)).
  { intros <- f Hf. destruct (L2 f Hf). rewrite <- size_of_field in *. apply slice_stored; auto. }
  destruct U as [(h & E & Hc & _ & Z & G)|(E & N)].
  - left. exists h. split; auto. split; [congruence|]. split; auto. intros f Hf. exists (field_value c e buf f).
    destruct (G f Hf). destruct (FS Z f Hf). auto.
  - right. split; auto. destruct N as [N|(f & Hf & N)].
    + left. intros Q. apply N. now apply (header_length_unique c).
    + destruct (Z.eq_dec (zlen buf) len) as [Z|Z].
      * right. exists f, (field_value c e buf f). destruct (FS Z f Hf). auto.
      * left. intros Q. apply Z. now apply (header_length_unique c).
Qed.

Lemma unpack_exclusive c e buf h f v : class_ok c -> holds_buffer c e buf h -> is_field c f ->
  in_ctype (ft_ctype (fd_type f)) v -> stored_at e buf (field_pos c f) (field_size f) v -> accepts (fd_type f) v.
Proof.
  intros K (Hc & H) Hf IC SA. destruct (H f Hf) as (w & _ & A & IC' & SA'). rewrite <- size_of_field in *.
  assert (v = w) by (eapply stored_unique; eauto). now subst.
Qed.

(* --- C21 --- *)
Lemma stored_bytes e buf buf' pos size v : stored_at e buf pos size v -> stored_at e buf' pos size v ->
  forall i, pos <= i < pos + size -> byte_at buf i = byte_at buf' i.
Proof.
  intros (P & L & H) (_ & _ & H') i Hi.
  destruct e.
  - specialize (H (i - pos) ltac:(lia)). specialize (H' (i - pos) ltac:(lia)).
    replace (pos + (i - pos)) with i in * by lia. congruence.
  - specialize (H (pos + size - 1 - i) ltac:(lia)). specialize (H' (pos + size - 1 - i) ltac:(lia)).
    replace (pos + (size - 1 - (pos + size - 1 - i))) with i in * by lia. congruence.
Qed.

Lemma repack c e p buf h : class_ok c -> starts_ok c -> types_fit c -> has_coincident c \/ declared_in_order c ->
  make_header_packer c e = Ok p -> all_bytes buf -> pk_unpack p buf = Ok h ->
  exists buf', pk_pack p h = Ok buf' /\ zlen buf' = zlen buf /\
    (forall i, covered c i -> byte_at buf' i = byte_at buf i) /\
    (forall i, 0 <= i < zlen buf -> ~ covered c i -> byte_at buf' i = 0).
Proof.
  intros K S T O M B U. destruct (unpack_iff c e p buf K S O M B) as [(h1 & E & HL & Hc & HB)|(E & _)]; rewrite E in U; [|discriminate].
  injection U as ->.
  assert (HO : header_ok h). { unfold header_ok. rewrite Hc. intros f Hf. destruct (HB f Hf) as (v & ? & ? & _). eauto. }
  assert (Q : exists buf', pk_pack p h = Ok buf').
  { destruct (pack_total c e p h K S T M Hc HO) as [(buf' & P & _)|(_ & f & g & Hf & Hg & OE & N)]; [eauto|].
    exfalso. apply N. destruct (HB f Hf) as (v & E1 & A1 & I1 & S1), (HB g Hg) as (w & E2 & A2 & I2 & S2).
    rewrite E1, E2. f_equal.
    assert (fd_type f = fd_type g).
    { apply K; auto. destruct (make_packer_ok _ _ _ M) as (d & len & _ & _ & _ & TB).
      destruct (String.string_dec (ft_name (fd_type f)) (ft_name (fd_type g))) as [|D]; auto. exfalso. apply TB. right. exists g, f.
      rewrite !class_fields_In by auto using class_ok_levels. auto. }
    unfold field_pos, field_size in S1, S2. rewrite <- OE, <- H, <- ctype_size_spec in *.
    eapply (stored_unique e buf (fd_offset f - fmt_start c)); eauto. }
  destruct Q as (buf' & P). exists buf'. split; auto.
  destruct (pack_layout c e p h buf' K S M Hc P) as (HL' & B' & St & G).
  assert (ZZ : zlen buf' = zlen buf) by (eapply header_length_unique; eauto). split; auto. split.
  - intros i (f & Hf & Hi). destruct (St f Hf) as (v & E1 & S1), (HB f Hf) as (w & E2 & _ & _ & S2).
    assert (w = v) by congruence. subst w. eapply stored_bytes; eauto.
  - intros i Hi. apply G. lia.
Qed.

(* equality of buffers by bytes *)
Lemma byte_ext a b : zlen a = zlen b -> (forall i, 0 <= i < zlen a -> byte_at a i = byte_at b i) -> a = b.
Proof.
  intros L H. apply (nth_ext _ _ 0 0); [unfold zlen in L; lia|]. intros n Hn. specialize (H (Z.of_nat n)).
  unfold byte_at, zlen in H. rewrite Nat2Z.id in H. apply H. lia.
Qed.

Lemma repack_same c buf buf' : zlen buf' = zlen buf -> (forall i, covered c i -> byte_at buf' i = byte_at buf i) ->
  (forall i, 0 <= i < zlen buf -> ~ covered c i -> byte_at buf' i = 0) ->
  (forall i, 0 <= i < zlen buf -> covered c i \/ ~ covered c i) ->
  (buf' = buf <-> forall i, 0 <= i < zlen buf -> ~ covered c i -> byte_at buf i = 0).
Proof.
  intros L A B D. split.
  - intros -> i Hi. now apply B.
  - intros H. apply byte_ext; auto. intros i Hi. destruct (D i) as [C|C]; [lia|now apply A|].
    rewrite B, H; auto; lia.
Qed.

Lemma covered_dec c i : levels_ok c -> covered c i \/ ~ covered c i.
Proof.
  intros K. assert (FI : forall f, In f (class_fields c) <-> is_field c f) by (intros; now apply class_fields_In).
  destruct (existsb (fun f => (field_pos c f <=? i) && (i <? field_pos c f + field_size f)) (class_fields c)) eqn:E.
  - left. apply existsb_exists in E. destruct E as (f & Hf & E). exists f. split; [now apply FI|lia].
  - right. intros (f & Hf & Hi). apply FI in Hf.
    assert (existsb (fun f => (field_pos c f <=? i) && (i <? field_pos c f + field_size f)) (class_fields c) = true); [|congruence].
    apply existsb_exists. exists f. split; auto. lia.
Qed.

(* --- C23 --- *)
Lemma construct_ok c kws : class_ok c -> NoDup (map fst kws) -> kw_fields_ok c kws ->
  exists h, hdr_init c [] kws = Ok h /\ h_cls h = c /\
    forall f, is_field c f ->
      (forall v, In (fd_name f, v) kws -> hdr_get h (fd_name f) = Ok v) /\
      (~ In (fd_name f) (map fst kws) -> hdr_get h (fd_name f) = Ok (fd_default f)).
Proof.
  intros K N W. destruct (hdr_init_kw c kws) as [(h & E & Hc & _ & _ & V)|(E & n & v & f & I & F & R)]; auto.
  - intros n Hn. apply in_map_iff in Hn. destruct Hn as ((n' & v) & <- & I). destruct (W _ _ I) as (f & Hf & <- & _).
    cbn [fst]. rewrite (is_field_class c f K Hf). discriminate.
  - exists h. split; auto. split; auto. intros f Hf. rewrite (hdr_get_field h f) by now rewrite Hc. rewrite V. split.
    + intros v I. now rewrite (assoc_NoDup _ _ _ N I).
    + intros I. now rewrite (proj2 (assoc_None _ _) I).
  - exfalso. destruct (W _ _ I) as (g & Hg & <- & A). rewrite (is_field_class c g K Hg) in F. injection F as ->. auto.
Qed.

(* keyword processing over a prefix that succeeds *)
Lemma set_keywords_app k1 : forall h k2, set_keywords h (k1 ++ k2) = (do h' <- set_keywords h k1 ;; set_keywords h' k2).
Proof.
  induction k1 as [|[n v] k1 IH]; intros h k2; cbn [app set_keywords]; auto.
  destruct (has_attr h n); auto. destruct (hdr_set h n v); cbn [bind]; auto.
Qed.

Lemma construct_prefix c k1 : class_ok c -> NoDup (map fst k1) -> kw_fields_ok c k1 ->
  exists h, set_keywords (mk_header c [] []) k1 = Ok h /\ h_cls h = c /\ h_extra h = [].
Proof.
  intros K N W. assert (KF : keys_are_fields c k1).
  { intros n Hn. apply in_map_iff in Hn. destruct Hn as ((n' & v) & <- & I). destruct (W _ _ I) as (f & Hf & <- & _).
    cbn [fst]. rewrite (is_field_class c f K Hf). discriminate. }
  rewrite set_keywords_all by exact KF.
  destruct (set_all_spec k1 (mk_header c [] []) KF N) as [(h & E & Hc & Hx & _)|(E & n & v & f & I & F & R)].
  - exists h. auto.
  - exfalso. destruct (W _ _ I) as (g & Hg & <- & A). cbn [h_cls] in F. rewrite (is_field_class c g K Hg) in F. injection F as ->. auto.
Qed.

Lemma init_kw_only c kws : hdr_init c [] kws = set_keywords (mk_header c [] []) kws.
Proof. unfold hdr_init. now destruct (ordered_field_names c). Qed.

Lemma construct_unknown c k1 n v k2 : class_ok c -> NoDup (map fst k1) -> kw_fields_ok c k1 ->
  (forall f, is_field c f -> fd_name f <> n) -> ~ In n (fmt_attrs c) ->
  hdr_init c [] (k1 ++ (n, v) :: k2) = Err TypeError.
Proof.
  intros K N W U A. rewrite init_kw_only, set_keywords_app. destruct (construct_prefix c k1 K N W) as (h & -> & Hc & Hx).
  cbn [bind set_keywords]. unfold has_attr. rewrite Hc, Hx.
  destruct (class_field c n) as [f|] eqn:E.
  - exfalso. apply class_field_spec in E; auto using class_ok_levels. destruct E as (E1 & E2). now apply (U f).
  - destruct (smem n (fmt_attrs c)) eqn:Q; [exfalso; apply A; now apply smem_In|]. reflexivity.
Qed.

Lemma construct_invalid c k1 f v k2 : class_ok c -> NoDup (map fst k1) -> kw_fields_ok c k1 ->
  is_field c f -> ~ accepts (fd_type f) v ->
  hdr_init c [] (k1 ++ (fd_name f, v) :: k2) = Err ValueError.
Proof.
  intros K N W Hf A. rewrite init_kw_only, set_keywords_app. destruct (construct_prefix c k1 K N W) as (h & -> & Hc & Hx).
  cbn [bind set_keywords]. unfold has_attr, hdr_set. rewrite Hc, (is_field_class c f K Hf).
  destruct (ft_new_spec (fd_type f) v) as [(_ & Q)|(-> & _)]; [now exfalso|reflexivity].
Qed.

Lemma map_res_get h names val : (forall n, In n names -> hdr_get h n = Ok (val n)) -> map_res (hdr_get h) names = Ok (map val names).
Proof. apply map_res_ok. Qed.

Lemma combine_map_r {A B} (f : A -> B) l : combine l (map f l) = map (fun x => (x, f x)) l.
Proof. induction l; cbn; auto. now f_equal. Qed.

Definition name_val (h : header) (n : string) : Z :=
  match assoc n (h_vals h) with Some v => v | None => match class_field (h_cls h) n with Some f => fd_default f | None => 0 end end.

Lemma name_val_get h n : class_field (h_cls h) n <> None -> hdr_get h n = Ok (name_val h n).
Proof.
  intros H. unfold hdr_get, name_val. destruct (class_field (h_cls h) n) as [f|]; [|easy]. now destruct (assoc n (h_vals h)).
Qed.

Lemma field_dict_spec h names : (forall n, In n names -> class_field (h_cls h) n <> None) ->
  exists d, field_dict h names = Ok d /\ NoDup (map fst d) /\
    (forall n, In n (map fst d) <-> In n names) /\
    (forall n, assoc n d = if smem n names then Some (name_val h n) else None).
Proof.
  intros H. unfold field_dict. rewrite (map_res_get h names (name_val h)) by (intros; apply name_val_get; auto). cbn [bind].
  rewrite combine_map_r. eexists. split; [reflexivity|].
  assert (F : forall n v, In (n, v) (map (fun x => (x, name_val h x)) names) <-> In n names /\ v = name_val h n).
  { intros n v. rewrite in_map_iff. split.
    - intros (x & E & I). injection E as -> <-. auto.
    - intros (I & ->). eauto. }
  assert (KS : forall n, In n (map fst (map (fun x => (x, name_val h x)) names)) <-> In n names).
  { intros n. rewrite map_map. cbn [fst]. now rewrite map_id. }
  split; [apply dict_update_NoDup; constructor|]. split.
  - intros n. rewrite dict_update_keys, KS. cbn. tauto.
  - intros n. rewrite dict_update_get by (intros v w A B; apply F in A, B; destruct A, B; congruence).
    destruct (assoc n (map _ names)) as [v|] eqn:E.
    + apply assoc_In, F in E. destruct E as (I & ->). now rewrite (proj2 (smem_In n names) I).
    + apply assoc_None in E. rewrite KS in E. destruct (smem n names) eqn:Q; auto. apply smem_In in Q. easy.
Qed.

Lemma field_name_In c f : class_ok c -> is_field c f -> In (fd_name f) (ordered_field_names c).
Proof. intros K Hf. apply ordered_names_In. rewrite (is_field_class c f K Hf). discriminate. Qed.

Lemma copy_ok h ups : class_ok (h_cls h) -> header_ok h -> NoDup (map fst ups) -> kw_fields_ok (h_cls h) ups ->
  exists h', hdr_copy h ups = Ok h' /\ h_cls h' = h_cls h /\
    forall f, is_field (h_cls h) f ->
      (forall v, In (fd_name f, v) ups -> hdr_get h' (fd_name f) = Ok v) /\
      (~ In (fd_name f) (map fst ups) -> hdr_get h' (fd_name f) = hdr_get h (fd_name f)).
Proof.
  intros K HO N W. unfold hdr_copy.
  destruct (field_dict_spec h (ordered_field_names (h_cls h))) as (d & -> & ND & KS & AS).
  { intros n Hn. now apply ordered_names_In. }
  cbn [bind].
  assert (DG : forall n, assoc n (dict_update d ups) = match assoc n ups with Some v => Some v | None => assoc n d end).
  { intros n. apply dict_update_get. intros v w A B. pose proof (assoc_NoDup _ _ _ N A). pose proof (assoc_NoDup _ _ _ N B). congruence. }
  assert (ND2 : NoDup (map fst (dict_update d ups))) by now apply dict_update_NoDup.
  assert (W2 : kw_fields_ok (h_cls h) (dict_update d ups)).
  { intros n v I. apply (assoc_NoDup _ _ _ ND2) in I. rewrite DG in I. destruct (assoc n ups) as [w|] eqn:E.
    - injection I as ->. apply W. now apply assoc_In.
    - rewrite AS in I. destruct (smem n _) eqn:Q; [|discriminate]. injection I as <-.
      apply smem_In, ordered_names_In in Q. destruct (class_field (h_cls h) n) as [f|] eqn:CF; [|easy].
      apply class_field_spec in CF; auto using class_ok_levels. destruct CF as (Hf & Hn). exists f. split; auto. split; auto.
      destruct (HO f Hf) as (v & E1 & A). rewrite name_val_get in E1.
      + subst n. congruence.
      + rewrite (is_field_class _ f K Hf). discriminate. }
  destruct (construct_ok (h_cls h) _ K ND2 W2) as (h' & -> & Hc & G). exists h'. split; auto. split; auto.
  intros f Hf. destruct (G f Hf) as (G1 & _). split.
  - intros v I. apply G1. apply assoc_In. rewrite DG. now rewrite (assoc_NoDup _ _ _ N I).
  - intros I. rewrite (name_val_get h (fd_name f)) by (rewrite (is_field_class _ f K Hf); discriminate). apply G1. apply assoc_In. rewrite DG.
    rewrite (proj2 (assoc_None _ _) I), AS. now rewrite (proj2 (smem_In _ _) (field_name_In _ f K Hf)).
Qed.

Lemma all_fields_equal_spec a b names : 
  (forall n, In n names -> class_field (h_cls a) n <> None) -> (forall n, In n names -> class_field (h_cls b) n <> None) ->
  exists r, all_fields_equal a b names = Ok r /\ (r = true <-> forall n, In n names -> hdr_get a n = hdr_get b n).
Proof.
  induction names as [|n names IH]; intros A B; cbn [all_fields_equal].
  - exists true. split; auto. split; auto. intros _ n [].
  - rewrite (name_val_get a n), (name_val_get b n) by (try apply A; try apply B; now left). cbn [bind].
    destruct (name_val a n =? name_val b n) eqn:E.
    + destruct IH as (r & -> & R); [intros; apply A; now right|intros; apply B; now right|]. exists r. split; auto. rewrite R. split.
      * intros H m [<-|Hm]; auto. rewrite (name_val_get a n), (name_val_get b n) by (try apply A; try apply B; now left). f_equal. lia.
      * intros H m Hm. apply H. now right.
    + exists false. split; auto. split; [discriminate|]. intros H. specialize (H n (or_introl eq_refl)).
      rewrite (name_val_get a n), (name_val_get b n) in H by (try apply A; try apply B; now left). injection H as H. lia.
Qed.

Lemma are_equal_iff a b : class_ok (h_cls a) -> h_cls b = h_cls a ->
  exists r, are_equal a b = Ok r /\ (r = true <-> same_fields a b).
Proof.
  intros K Hc. unfold are_equal. rewrite Hc, String.eqb_refl. cbn [negb].
  assert (H : forall n, In n (ordered_field_names (h_cls a)) -> class_field (h_cls a) n <> None) by (intros; now apply ordered_names_In).
  destruct (all_fields_equal_spec a b (ordered_field_names (h_cls a))) as (r & -> & R); auto; [now rewrite Hc|].
  exists r. split; auto. rewrite R. unfold same_fields. split.
  - intros G. split; auto. intros f Hf. symmetry. apply G. now apply field_name_In.
  - intros (_ & G) n Hn. specialize (H n Hn). destruct (class_field (h_cls a) n) as [f|] eqn:E; [|easy].
    apply class_field_spec in E; auto using class_ok_levels. destruct E as (Hf & <-). symmetry. now apply G.
Qed.

Lemma are_equal_other a b : fmt_name (h_cls a) <> fmt_name (h_cls b) -> are_equal a b = Ok false.
Proof. intros N. unfold are_equal. apply String.eqb_neq in N. now rewrite N. Qed.

(* --- C24 --- *)
Lemma fold_set_all attrs : forall h, fold_left (fun r p => do h <- r ;; hdr_set h (fst p) (snd p)) attrs (Ok h) = set_all h attrs.
Proof.
  induction attrs as [|[n v] attrs IH]; intros h; auto. cbn [fold_left set_all bind fst snd].
  destruct (hdr_set h n v) as [h'|err]; cbn [bind]; auto. clear. induction attrs; auto.
Qed.

Lemma pickle_own h : class_ok (h_cls h) -> header_ok h -> fmt_levels (h_cls h) <> [] ->
  exists h', hdr_pickle h = Ok h' /\ h_cls h' = h_cls h /\
    (forall f, is_field (h_cls h) f -> own_field (h_cls h) f -> hdr_get h' (fd_name f) = hdr_get h (fd_name f)) /\
    (forall f, is_field (h_cls h) f -> ~ own_field (h_cls h) f -> hdr_get h' (fd_name f) = Ok (fd_default f)).
Proof.
  intros K HO NE. set (c := h_cls h) in *. destruct (exists_last NE) as (ls & l & El).
  assert (ON : own_field_names c = map fd_name (snd l)) by (unfold own_field_names; rewrite El, last_last; reflexivity).
  assert (OF : forall f, In f (snd l) -> is_field c f).
  { intros f Hf. exists ls, l, []. split; auto; intros ? ? []. }
  assert (NDl : NoDup (map fd_name (snd l))) by (apply K; rewrite El; apply in_or_app; right; now left).
  assert (CN : forall n, In n (own_field_names c) -> class_field c n <> None).
  { intros n Hn. rewrite ON in Hn. apply in_map_iff in Hn. destruct Hn as (f & <- & Hf). rewrite (is_field_class c f K (OF f Hf)). discriminate. }
  unfold hdr_pickle, hdr_getstate. fold c.
  rewrite (map_res_get h (own_field_names c) (name_val h)) by (intros; apply name_val_get; now apply CN). cbn [bind].
  rewrite combine_map_r. set (kvs := map _ _).
  assert (KF : map fst kvs = own_field_names c) by (unfold kvs; rewrite map_map; apply map_id).
  unfold hdr_setstate. rewrite fold_set_all.
  destruct (set_all_spec kvs (mk_header c [] [])) as [(h1 & E & Hc & Hx & _ & V)|(E & n & v & f & I & F & R)].
  - intros n Hn. rewrite KF in Hn. now apply CN.
  - now rewrite KF, ON.
  - rewrite E. cbn [bind]. eexists. split; [reflexivity|]. cbn [h_cls]. split; auto.
    assert (AK : forall n, assoc n kvs = if smem n (own_field_names c) then Some (name_val h n) else None).
    { intros n. destruct (smem n (own_field_names c)) eqn:Q.
      - apply assoc_NoDup; [now rewrite KF, ON|]. apply in_map_iff. exists n. split; auto. now apply smem_In.
      - apply assoc_None. rewrite KF. intros I. apply smem_In in I. congruence. }
    split.
    + intros f Hf (ls' & l' & El' & Il'). assert (l' = l) as ->.
      { rewrite El in El'. apply app_inj_tail in El'. now destruct El'. }
      unfold hdr_get at 1. cbn [h_cls h_vals]. rewrite (is_field_class c f K Hf), V, AK.
      rewrite (proj2 (smem_In _ _)) by (rewrite ON; now apply in_map).
      symmetry. apply name_val_get. fold c. rewrite (is_field_class c f K Hf). discriminate.
    + intros f Hf NO. unfold hdr_get. cbn [h_cls h_vals]. rewrite (is_field_class c f K Hf), V, AK.
      replace (smem (fd_name f) (own_field_names c)) with false; [reflexivity|]. symmetry.
      destruct (smem (fd_name f) (own_field_names c)) eqn:Q; auto. exfalso. apply NO. apply smem_In in Q. rewrite ON in Q.
      apply in_map_iff in Q. destruct Q as (g & E1 & Hg). assert (g = f) by (apply (is_field_name c); auto using class_ok_levels).
      subst g. exists ls, l. auto.
  - exfalso. apply in_map_iff in I. destruct I as (n' & Q & I). injection Q as -> <-.
    cbn [h_cls] in F. apply class_field_spec in F; auto using class_ok_levels. destruct F as (Hf & <-).
    destruct (HO f Hf) as (v & E1 & A). rewrite name_val_get in E1 by now apply CN. injection E1 as E1. rewrite E1 in R. auto.
Qed.

(* --- C26 --- *)
Lemma sub_fields_ok parent names : forall acc, levels_ok parent ->
  (forall n, In n names -> exists f, is_field parent f /\ fd_name f = n) ->
  NoDup (map fd_name acc) -> (forall f, In f acc -> is_field parent f) ->
  exists fs, sub_fields parent names acc = Ok fs /\ NoDup (map fd_name fs) /\
    (forall f, In f fs <-> In f acc \/ is_field parent f /\ In (fd_name f) names).
Proof.
  induction names as [|n names IH]; intros acc K H N A; cbn [sub_fields].
  - exists acc. split; auto. split; auto. intros f. cbn. tauto.
  - destruct (H n (or_introl eq_refl)) as (f & Hf & En).
    assert (E : class_field parent n = Some f) by (apply class_field_spec; auto). rewrite E.
    destruct (smem n (map fd_name acc)) eqn:Q.
    + destruct (IH acc) as (fs & E1 & N1 & I1); auto. { intros; apply H; now right. }
      exists fs. split; auto. split; auto. intros g. rewrite I1. split.
      * intros [?|(? & ?)]; auto. right. split; auto. now right.
      * intros [?|(Hg & [En'|?])]; auto. left. apply smem_In, in_map_iff in Q. destruct Q as (f' & E' & I').
        replace g with f'; auto. apply (is_field_name parent); auto. congruence.
    + destruct (IH (acc ++ [f])) as (fs & E1 & N1 & I1); auto.
      * intros; apply H; now right.
      * rewrite map_app. cbn [map]. apply (Permutation_NoDup (l := fd_name f :: map fd_name acc)); [apply Permutation_cons_append|].
        constructor; auto. rewrite En. intros I. apply smem_In in I. congruence.
      * intros g Hg. apply in_app_or in Hg. destruct Hg as [Hg|[<-|[]]]; auto.
      * exists fs. split; auto. split; auto. intros g. rewrite I1, in_app_iff. cbn [In]. split.
        -- intros [[?|[<-|[]]]|(? & ?)]; auto.
        -- intros [?|(Hg & [En'|?])]; auto. left. right. left. apply (is_field_name parent); auto. congruence.
Qed.

Lemma sub_format_ok name parent names : levels_ok parent ->
  (forall n, In n names -> exists f, is_field parent f /\ fd_name f = n) ->
  exists sub fs, sub_format name parent names = Ok sub /\ fmt_levels sub = [(name, fs)] /\ NoDup (map fd_name fs) /\
    sub_format_of sub parent names.
Proof.
  intros K H. unfold sub_format. destruct (sub_fields_ok parent names [] K H) as (fs & -> & N & I); [constructor|intros ? []|].
  cbn [bind]. eexists. exists fs. split; [reflexivity|]. split; auto. split; auto. split; auto. split; auto.
  intros f. split.
  - intros (ls1 & l & ls2 & E & Hf & _). cbn in E. destruct ls1 as [|? ls1].
    + cbn in E. injection E as <- <-. cbn in Hf. apply I in Hf. destruct Hf as [[]|Hf]. auto.
    + cbn in E. injection E as <- E. destruct ls1; discriminate.
  - intros Hf. exists [], (name, fs), []. split; auto. split; [apply I; auto|]. intros ? ? [].
Qed.

Lemma sub_class_ok sub parent names name fs : class_ok parent -> fmt_levels sub = [(name, fs)] -> NoDup (map fd_name fs) ->
  sub_format_of sub parent names -> class_ok sub.
Proof.
  intros (K1 & K2 & K3) El N (_ & _ & F). split; [|split].
  - intros l Hl. rewrite El in Hl. destruct Hl as [<-|[]]. exact N.
  - intros f Hf. apply F in Hf. now apply K2.
  - intros f g Hf Hg. apply F in Hf, Hg. now apply K3.
Qed.

Lemma sub_compiles sub parent names e p n : class_ok parent -> class_ok sub -> sub_format_of sub parent names ->
  fmt_length parent = Some n -> make_header_packer parent e = Ok p -> (exists f, is_field sub f) ->
  exists q, make_header_packer sub e = Ok q.
Proof.
  intros K Ks (F1 & F2 & F3) Hn M (f0 & H0).
  destruct (compile_iff sub (fmt_start sub) (fmt_length sub) (class_ok_levels _ Ks)) as (_ & _ & C).
  destruct (compile_iff parent (fmt_start parent) (fmt_length parent) (class_ok_levels _ K)) as (_ & _ & Cp).
  assert (P : exists r, compile_struct parent (fmt_start parent) (fmt_length parent) = Ok r).
  { unfold make_header_packer in M. destruct (compile_struct parent _ _); [eauto|discriminate]. }
  apply Cp in P. destruct P as (P1 & P2). destruct (proj2 C) as (r & E).
  - split.
    + intros [A|[A|[(f & g & A & B & D)|(m & f & A & B & D)]]]; apply P1; rewrite F1, ?F2 in *.
      * now left.
      * right. now left.
      * right. right. left. apply F3 in A, B. exists f, g. tauto.
      * right. right. right. apply F3 in B. exists m, f. tauto.
    + intros [A|(f & g & A & B & D)]; [now apply (A f0)|]. apply P2. right. apply F3 in A, B. exists f, g. tauto.
  - unfold make_header_packer. rewrite E. destruct r. cbn [bind]. eauto.
Qed.

Lemma sub_agrees name parent names e p n buf h sub : class_ok parent -> starts_ok parent ->
  has_coincident parent \/ declared_in_order parent -> fmt_length parent = Some n ->
  names <> [] -> (forall n, In n names -> exists f, is_field parent f /\ fd_name f = n) ->
  sub_format name parent names = Ok sub -> has_coincident sub \/ declared_in_order sub ->
  make_header_packer parent e = Ok p -> all_bytes buf -> pk_unpack p buf = Ok h ->
  exists q h', make_header_packer sub e = Ok q /\ pk_unpack q buf = Ok h' /\
    forall nm, In nm names -> hdr_get h' nm = hdr_get h nm.
Proof.
  intros K S O Hn NE HN SF Os M B U.
  destruct (sub_format_ok name parent names (class_ok_levels _ K) HN) as (sub' & fs & E & El & ND & SO).
  rewrite SF in E. injection E as <-. pose proof (sub_class_ok _ _ _ _ _ K El ND SO) as Ks.
  assert (Ex : exists f, is_field sub f).
  { destruct names as [|n0 names]; [easy|]. destruct (HN n0 (or_introl eq_refl)) as (f & Hf & <-). exists f. apply SO. split; auto. now left. }
  destruct (sub_compiles sub parent names e p n K Ks SO Hn M Ex) as (q & Eq). exists q.
  assert (Ss : starts_ok sub).
  { intros f Hf. destruct SO as (F1 & _ & F3). rewrite F1. apply S. now apply F3. }
  destruct (unpack_spec parent e p buf K S O M) as (len & L1 & L2 & [(h1 & E & Hc & _ & Z & G)|(E & _)]); rewrite E in U; [|discriminate].
  injection U as ->.
  destruct SO as (F1 & F2 & F3).
  assert (FV : forall f, field_value sub e buf f = field_value parent e buf f) by (intros; unfold field_value, field_pos; now rewrite F1).
  destruct (unpack_spec sub e q buf Ks Ss Os Eq) as (len' & L1' & L2' & [(h' & E' & Hc' & _ & Z' & G')|(E' & [N|(f & Hf & N)])]).
  - exists h'. split; auto. split; auto. intros nm Hnm. destruct (HN nm Hnm) as (f & Hf & <-).
    destruct (G f Hf) as (G1 & _). destruct (G' f) as (G2 & _); [apply F3; auto|]. rewrite FV in G2. congruence.
  - exfalso. apply N. rewrite F2, Hn in L1'. rewrite Hn in L1. lia.
  - exfalso. apply N. rewrite FV. apply F3 in Hf. now apply G.
Qed.

(* --- C27 --- *)
Lemma concat_len {A} (bs : list (list A)) n : Forall (fun b => zlen b = n) bs -> zlen (concat bs) = zlen bs * n.
Proof.
  induction 1 as [|b bs Hb F IH]; [reflexivity|]. cbn [concat]. rewrite zlen_app, zlen_cons, Hb, IH. lia.
Qed.

Lemma map_res_inv {A B} (g : A -> res B) l bs : map_res g l = Ok bs -> Forall2 (fun a b => g a = Ok b) l bs.
Proof.
  revert bs; induction l as [|a l IH]; intros bs; cbn [map_res]; [now injection 1 as <-|].
  destruct (g a) as [b|] eqn:E; cbn [bind]; [|discriminate]. destruct (map_res g l) as [bs'|]; cbn [bind]; [|discriminate].
  injection 1 as <-. constructor; auto.
Qed.

Lemma Forall2_len {A B} (R : A -> B -> Prop) l m : Forall2 R l m -> length l = length m.
Proof. induction 1; cbn; auto. Qed.

Lemma chunks_of_concat n : (0 < n)%nat -> forall bs fuel, Forall (fun b : list Z => length b = n) bs ->
  (length (concat bs) <= fuel)%nat -> chunks_of fuel n (concat bs) = bs.
Proof.
  intros Hn. induction bs as [|b bs IH]; intros fuel F L; inversion F as [|? ? Hb F']; subst.
  - cbn. now destruct fuel.
  - cbn [concat] in *. rewrite app_length in L. destruct fuel as [|fuel]; [lia|]. cbn [chunks_of].
    destruct (b ++ concat bs) eqn:E; [destruct b; cbn in *; [lia|discriminate]|]. rewrite <- E.
    rewrite firstn_app, Nat.sub_diag, firstn_all, firstn_O, app_nil_r. rewrite skipn_app, Nat.sub_diag, skipn_all, skipn_O. cbn [app].
    f_equal. apply IH; auto. lia.
Qed.

Lemma unpack_int_rev e c b : unpack_int (match e with Little => Big | Big => Little end) c (rev b) = unpack_int e c b.
Proof. unfold unpack_int, order_bytes. destruct e; now rewrite ?rev_involutive. Qed.

Lemma unpack_pack_values native e c vs : Forall (in_ctype c) vs ->
  exists b, pack_values e c vs = Ok b /\ zlen b = zlen vs * ctype_bytes c /\ all_bytes b /\
    unpack_values native e c b = Ok vs.
Proof.
  intros F. unfold pack_values.
  assert (Q : exists bs, map_res (pack_int e c) vs = Ok bs).
  { induction F as [|v vs Hv F (bs & E)]; [exists []; auto|]. cbn [map_res]. rewrite (pack_int_ok e c v Hv). cbn [bind]. rewrite E. cbn [bind]. eauto. }
  destruct Q as (bs & E). rewrite E. cbn [bind]. exists (concat bs). split; auto. apply map_res_inv in E.
  pose proof (ctype_size_pos c) as Hs.
  assert (L : Forall (fun b => zlen b = ctype_size c) bs /\ all_bytes (concat bs)).
  { clear -E. induction E as [|v b vs bs Hv E IH]; [split; constructor|]. destruct (pack_int_inv _ _ _ _ Hv) as (_ & A & B). destruct IH.
    split; [now constructor|]. cbn [concat]. apply all_bytes_app. auto. }
  destruct L as (L & B). pose proof (Forall2_len _ _ _ E) as EL.
  assert (Z : zlen (concat bs) = zlen vs * ctype_size c) by (rewrite (concat_len bs _ L); unfold zlen; now rewrite EL).
  split; [now rewrite <- ctype_size_spec|]. split; auto. unfold unpack_values. rewrite Z, Z.mod_mul by lia. cbn [Z.eqb negb].
  rewrite chunks_of_concat; [|lia| |lia].
  2:{ eapply Forall_impl; [|exact L]. unfold zlen. cbn. intros a Ha. lia. }
  f_equal. destruct (endian_eqb e native) eqn:Q.
  - assert (e = native) as -> by (destruct e, native; auto; discriminate). clear -E.
    induction E as [|v b vs bs Hv E IH]; auto. cbn [map]. rewrite (unpack_pack_int _ _ _ _ Hv). now rewrite IH.
  - rewrite map_map. assert (native = match e with Little => Big | Big => Little end) as -> by (destruct e, native; auto; discriminate). clear -E.
    induction E as [|v b vs bs Hv E IH]; auto. cbn [map]. rewrite unpack_int_rev, (unpack_pack_int _ _ _ _ Hv). now rewrite IH.
Qed.

Lemma pack_values_err e c vs : ~ Forall (in_ctype c) vs -> pack_values e c vs = Err StructError.
Proof.
  unfold pack_values. intros H. assert (E : map_res (pack_int e c) vs = Err StructError); [|now rewrite E].
  induction vs as [|v vs IH]; [exfalso; apply H; constructor|]. cbn [map_res].
  destruct (pack_int e c v) as [b|err] eqn:E; cbn [bind].
  - rewrite IH; auto. intros F. apply H. constructor; auto. now apply pack_int_inv in E.
  - unfold pack_int in E. destruct (_ && _); [discriminate|congruence].
Qed.

Lemma pack_values_stored e c vs b : pack_values e c vs = Ok b ->
  forall i, 0 <= i < zlen vs -> stored_at e b (i * ctype_bytes c) (ctype_bytes c) (nth (Z.to_nat i) vs 0).
Proof.
  unfold pack_values. destruct (map_res (pack_int e c) vs) as [bs|] eqn:E; cbn [bind]; [|discriminate]. injection 1 as <-.
  apply map_res_inv in E. rewrite <- ctype_size_spec. induction E as [|v b vs bs Hv E IH]; intros i Hi.
  - change (zlen (@nil Z)) with 0 in Hi. lia.
  - rewrite zlen_cons in Hi. cbn [concat]. destruct (pack_int_inv _ _ _ _ Hv) as (_ & A & _).
    destruct (Z.eq_dec i 0) as [->|].
    + cbn [Z.to_nat nth]. rewrite Z.mul_0_l. apply stored_front. now apply pack_int_stored.
    + specialize (IH (i - 1) ltac:(lia)). replace (Z.to_nat i) with (Datatypes.S (Z.to_nat (i - 1))) by lia. cbn [nth].
      replace (i * ctype_size c) with (zlen b + (i - 1) * ctype_size c) by (rewrite A; ring). apply stored_shift; [|exact IH].
      pose proof (ctype_size_pos c). apply Z.mul_nonneg_nonneg; lia.
Qed.
